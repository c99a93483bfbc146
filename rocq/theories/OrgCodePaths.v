(** Proofs about the files of include areas (OrgCode.v parse_include_path, file_key). *)
From Coq Require Import String.
From Verif Require Import PyBase PyInt PyText Paths OrgCode Spec_Code ContainerToc DescentProofs OrgCodeProofs.
Set Implicit Arguments.
Open Scope list_scope.
Open Scope N_scope.

Lemma rev_tl {T} (l : list T) : rev (tl l) = removelast (rev l).
Proof. destruct l as [|x l]; [reflexivity|]. cbn [tl rev]. rewrite removelast_last. reflexivity. Qed.
Lemma astep_walk st c : rev (astep st c) = walk (rev st) c.
Proof.
  unfold astep, walk. destruct c as [|a c]; [reflexivity|].
  destruct (str_eqb (a :: c) dot1) eqn:E1.
  - apply str_eqb_spec in E1. injection E1 as -> ->. reflexivity.
  - destruct (str_eqb (a :: c) dot2) eqn:E2.
    + apply str_eqb_spec in E2. injection E2 as -> ->. apply rev_tl.
    + cbn [rev]. destruct (N.eq_dec a 46) as [->|Ha].
      * destruct c as [|b c]; [discriminate|]. destruct (N.eq_dec b 46) as [->|Hb].
        -- destruct c; [discriminate|reflexivity].
        -- clear E1 E2. destruct b as [|p]; [reflexivity|]. do 6 (destruct p as [p|p|]; try reflexivity; try (destruct c; reflexivity); try contradiction).
      * clear E1 E2. destruct a as [|p]; [reflexivity|]. do 6 (destruct p as [p|p|]; try reflexivity; try contradiction).
Qed.
Lemma fold_walk l : forall st, rev (fold_left astep l st) = fold_left walk l (rev st).
Proof. induction l as [|c l IH]; intros st; [reflexivity|]. cbn [fold_left]. rewrite IH, astep_walk. reflexivity. Qed.
Lemma acomps_enter p : rev (acomps p) = enter [] p.
Proof. unfold acomps, enter. rewrite fold_walk. reflexivity. Qed.

Lemma enter_app f a b : enter f (a ++ slash :: b) = enter (enter f a) b.
Proof. unfold enter. change 47 with slash. rewrite split_ch_app, fold_left_app. reflexivity. Qed.
Lemma enter_nil f : enter f [] = f. Proof. reflexivity. Qed.
Lemma enter_join a b : is_abs b = false -> enter [] (path_join a b) = enter (enter [] a) b.
Proof.
  intros Hb. unfold path_join. unfold is_abs in Hb. rewrite Hb.
  destruct a as [|x a0] eqn:E; [reflexivity|]. rewrite <- E. cbn [orb].
  destruct (ends [slash] a) eqn:Ee.
  - apply ends_spec in Ee. destruct Ee as [t ->]. rewrite <- app_assoc. cbn [app]. rewrite !enter_app, enter_nil. reflexivity.
  - cbn [app]. apply enter_app.
Qed.
Definition nice (f : list (list N)) : Prop := Forall (fun c => c <> [] /\ ~ In slash c) f.
Lemma nice_removelast f : nice f -> nice (removelast f).
Proof.
  intros H. destruct f as [|x f]; [exact H|]. destruct (@exists_last _ (x :: f)) as (l & y & E); [discriminate|]. rewrite E in *.
  rewrite removelast_last. apply Forall_app in H. apply H.
Qed.
Lemma nice_walk f e : ~ In slash e -> nice f -> nice (walk f e).
Proof.
  intros He Hf. assert (H : walk f e = f \/ walk f e = removelast f \/ (e <> [] /\ walk f e = f ++ [e])).
  { unfold walk. destruct e as [|a l]; [left; reflexivity|]. 
    destruct a as [|p]; [right; right; split; [discriminate|reflexivity]|].
    assert (Hd : forall q k, N.pos q :: k <> []) by discriminate.
    do 6 (destruct p as [p|p|]; try (right; right; split; [discriminate|reflexivity])); try (destruct l; auto; fail).
    destruct l as [|b l]; [auto|]. destruct b as [|p]; [right; right; split; [discriminate|reflexivity]|].
    do 6 (destruct p as [p|p|]; try (right; right; split; [discriminate|reflexivity])). 
    destruct l; [right; left; reflexivity|right; right; split; [discriminate|reflexivity]]. }
  destruct H as [->|[->|[H ->]]]; [exact Hf|apply nice_removelast; exact Hf|].
  apply Forall_app. split; [exact Hf|]. constructor; [split; assumption|constructor].
Qed.
Lemma nice_fold l : Forall (fun e => ~ In slash e) l -> forall f, nice f -> nice (fold_left walk l f).
Proof. induction 1 as [|e l He Hl IH]; intros f Hf; [exact Hf|]. cbn. apply IH. apply nice_walk; assumption. Qed.
Lemma nice_enter p f : nice f -> nice (enter f p).
Proof. intros H. apply nice_fold; [|exact H]. apply split_ch_parts_nosep. Qed.

Lemma nice_join_end l y : y <> [] -> ~ In slash y -> ends [slash] (slash :: join [slash] (l ++ [y])) = false.
Proof.
  intros Hy Hs. destruct (exists_last Hy) as (y0 & z & ->).
  assert (E : exists t, slash :: join [slash] (l ++ [y0 ++ [z]]) = t ++ [z]).
  { destruct l as [|x l]; [exists (slash :: y0); reflexivity|]. rewrite join_app by discriminate. cbn [join]. exists (slash :: join [slash] (x :: l) ++ [slash] ++ y0). cbn. rewrite <- !app_assoc. reflexivity. }
  destruct E as [t ->]. destruct (ends [slash] (t ++ [z])) eqn:Ee; [|reflexivity]. apply ends_spec in Ee. destruct Ee as [t' E].
  apply app_inj_tail in E. destruct E as [_ ->]. exfalso. apply Hs. apply in_or_app. right. left. reflexivity.
Qed.
Lemma join_snoc f n : nice f -> ~ In slash n -> path_join (slash :: join [slash] f) n = written (f ++ [n]).
Proof.
  intros Hf Hn. unfold path_join. 
  assert (starts [slash] n = false) as ->.
  { destruct (starts [slash] n) eqn:E; [|reflexivity]. apply starts_spec in E. destruct E as [t ->]. exfalso. apply Hn. left. reflexivity. }
  cbn [orb]. destruct f as [|x f]; [reflexivity|]. destruct (@exists_last _ (x :: f)) as (l & y & E); [discriminate|]. rewrite E in *.
  apply Forall_app in Hf. destruct Hf as [_ Hy]. inversion Hy as [|? ? [H1 H2] _]; subst. rewrite nice_join_end by assumption.
  unfold written. change 47 with slash. rewrite (@join_app _ (l ++ [y]) [n]); [reflexivity| |discriminate]. destruct l; discriminate.
Qed.
Lemma nosep_last sep s : ~ In sep (last (split_ch sep s) []).
Proof.
  pose proof (split_ch_parts_nosep sep s) as H. destruct (exists_last (split_ch_nonnil sep s)) as (l & x & E). rewrite E in *. rewrite last_last.
  apply Forall_app in H. destruct H as [_ H]. inversion H; subst. assumption.
Qed.
Lemma split_parts_in sep s c : ~ In c s -> Forall (fun e => ~ In c e) (split_ch sep s).
Proof.
  intros Hc. induction s as [|x s IH]; cbn; [constructor; [exact Hc|constructor]|].
  assert (H : Forall (fun e => ~ In c e) (split_ch sep s)) by (apply IH; intros H; apply Hc; right; exact H).
  destruct (x =? sep); [constructor; [intros []|exact H]|]. destruct (split_ch sep s) as [|y l]; cbn; [constructor; [|constructor]|inversion H; subst; constructor; [|assumption]].
  - intros [->|[]]. apply Hc. left. reflexivity.
  - intros [->|Hy]; [apply Hc; left; reflexivity|contradiction].
Qed.
Lemma file_key_written dest p f : is_abs p = false -> ~ In slash f -> file_key dest p f = written (enter (enter [] dest) p ++ [f]).
Proof.
  intros Hp Hf. unfold file_key, abspath. rewrite acomps_enter, enter_join by exact Hp. apply join_snoc; [|exact Hf]. apply nice_enter, nice_enter. constructor.
Qed.

Lemma is_abs_dots p : is_abs (path_join dot2 p) = false \/ is_abs p = true.
Proof. unfold path_join. destruct (starts [slash] p) eqn:E; [right; exact E|left; reflexivity]. Qed.
Lemma noslash_abs e : ~ In slash e -> is_abs e = false.
Proof. intros H. unfold is_abs. destruct (starts [slash] e) eqn:E; [|reflexivity]. apply starts_spec in E. destruct E as [t ->]. exfalso. apply H. left. reflexivity. Qed.
Lemma joins_abs l : Forall (fun e => ~ In slash e) l -> forall a, a <> [] -> is_abs a = false -> is_abs (path_joins a l) = false.
Proof.
  induction 1 as [|e l He Hl IH]; intros a Ha Hab; [exact Hab|]. cbn. apply IH.
  - apply path_join_nonnil; [exact Ha|apply noslash_abs; exact He].
  - rewrite is_abs_join; [exact Hab|exact Ha|apply noslash_abs; exact He].
Qed.
Lemma joins_len l : Forall (fun e => ~ In slash e) l -> forall a, (length a <= length (path_joins a l))%nat.
Proof.
  induction 1 as [|e l He Hl IH]; intros a; [cbn; lia|]. cbn. etransitivity; [|apply IH]. unfold path_join. change (starts [slash] e) with (is_abs e). rewrite (@noslash_abs _ He).
  destruct (_ || _); rewrite !app_length; lia.
Qed.
Lemma enter_one f e : ~ In slash e -> enter f e = walk f e.
Proof. intros H. unfold enter. change 47 with slash. rewrite split_ch_nosep by exact H. reflexivity. Qed.
Lemma enter_rel a b f : a <> [] -> is_abs b = false -> enter f (path_join a b) = enter (enter f a) b.
Proof.
  intros Ha Hb. unfold path_join. unfold is_abs in Hb. rewrite Hb.
  destruct a as [|x a0] eqn:E; [congruence|]. rewrite <- E. cbn [orb].
  destruct (ends [slash] a) eqn:Ee.
  - apply ends_spec in Ee. destruct Ee as [t ->]. rewrite <- app_assoc. cbn [app]. rewrite !enter_app, enter_nil. reflexivity.
  - cbn [app]. apply enter_app.
Qed.
Lemma enter_joins l : Forall (fun e => ~ In slash e) l -> forall a f, a <> [] -> enter f (path_joins a l) = fold_left walk l (enter f a).
Proof.
  induction 1 as [|e l He Hl IH]; intros a f Ha; [reflexivity|]. cbn [fold_left path_joins]. fold (path_joins (path_join a e) l). rewrite IH by (apply path_join_nonnil; [exact Ha|apply noslash_abs; exact He]).
  rewrite enter_rel by (exact Ha || apply noslash_abs; exact He). rewrite enter_one by exact He. reflexivity.
Qed.
Definition climb' := (fun e : list N => match e with [] => dot2 | _ => e end).
Lemma climb_noslash l : Forall (fun e => ~ In slash e) l -> Forall (fun e => ~ In slash e) (map climb' l).
Proof.
  induction 1 as [|e l He Hl IH]; cbn; constructor; [|exact IH]. destruct e; [|exact He]. cbn. intros [H|[H|[]]]; discriminate.
Qed.
Lemma Forall_removelast {T} (P : T -> Prop) l : Forall P l -> Forall P (removelast l).
Proof.
  intros H. destruct l as [|x f]; [exact H|]. destruct (@exists_last _ (x :: f)) as (l & y & E); [discriminate|]. rewrite E in *.
  rewrite removelast_last. apply Forall_app in H. apply H.
Qed.

(** parse_include_path in closed form *)
Lemma parse_one name path index n : split_ch 95 (target index name) = [n] ->
  parse_include_path name path index false = (path, n ++ a_bsl) /\
  parse_include_path name path index true = (path_join dot2 dot2, n ++ a_bsl).
Proof. intros H. unfold target in H. unfold parse_include_path. change UNDERSCORE with 95. rewrite H. split; reflexivity. Qed.
Lemma joins_not_up l (descent : bool) : Forall (fun e => ~ In slash e) l -> l <> [] ->
  str_eqb (path_joins (if descent then path_join dot2 dot2 else dot2) (map climb' l)) dot2 = false.
Proof.
  intros Hl Hne. apply climb_noslash in Hl. destruct l as [|e l]; [congruence|]. clear Hne. cbn [map path_joins fold_left] in *.
  inversion Hl as [|? ? He Hr]; subst. fold (path_joins (path_join (if descent then path_join dot2 dot2 else dot2) (climb' e)) (map climb' l)).
  destruct (str_eqb _ dot2) eqn:E; [|reflexivity]. exfalso. apply str_eqb_spec in E. pose proof (joins_len Hr (path_join (if descent then path_join dot2 dot2 else dot2) (climb' e))) as HL.
  rewrite E in HL. unfold path_join at 1 in HL. change (starts [slash] (climb' e)) with (is_abs (climb' e)) in HL. rewrite (@noslash_abs _ He) in HL.
  destruct descent; cbn [orb ends path_join starts app] in HL; rewrite ?app_length in HL; cbn in HL; lia.
Qed.
Lemma parse_many name path index (descent : bool) : ~ In slash (target index name) -> removelast (split_ch 95 (target index name)) <> [] ->
  parse_include_path name path index descent =
  (path_joins (if descent then path_join dot2 dot2 else dot2) (map climb' (removelast (split_ch 95 (target index name)))), last (split_ch 95 (target index name)) [] ++ a_bsl).
Proof.
  intros Hs Hne. unfold target in *. unfold parse_include_path. change UNDERSCORE with 95. 
  set (tmp := split_ch 95 match dget name index with Some t => t | None => name end) in *.
  assert (HF : Forall (fun e => ~ In slash e) tmp) by (apply split_parts_in; exact Hs).
  assert ((1 <? length tmp)%nat = true) as ->.
  { apply Nat.ltb_lt. destruct tmp as [|a [|b t]]; [cbn in Hne; congruence|cbn in Hne; congruence|cbn; lia]. }
  cbv zeta. fold climb'. rewrite (joins_not_up descent (Forall_removelast HF) Hne). reflexivity.
Qed.

(** Where an include lies. *)
Lemma include_place name path index (descent : bool) dest : is_abs path = false -> ~ In slash (target index name) ->
  let pf := parse_include_path name path index descent in
  file_key dest (fst pf) (snd pf) = written (include_file index descent (enter [] dest) path name).
Proof.
  intros Hp Hs. cbv zeta. unfold include_file.
  pose proof (@split_parts_in 95 _ _ Hs) as HF. change a_bsl with s_bsl in *.
  assert (Hb : forall n, ~ In slash n -> ~ In slash (n ++ s_bsl)).
  { intros n Hn H. apply in_app_or in H. destruct H as [H|H]; [contradiction|]. cbn in H. intuition discriminate. }
  destruct (split_ch 95 (target index name)) as [|a [|b t]] eqn:E.
  - exfalso. exact (split_ch_nonnil 95 _ E).
  - inversion HF as [|? ? Ha _]; subst. destruct (parse_one _ path _ E) as [P1 P2].
    destruct descent; [rewrite P2|rewrite P1]; cbn [fst snd]; (rewrite file_key_written; [|first [exact Hp|reflexivity]|change a_bsl with s_bsl; apply Hb; exact Ha]); [|reflexivity].
    rewrite enter_rel by (discriminate || reflexivity). reflexivity.
  - rewrite (@parse_many name path index descent Hs) by (rewrite E; discriminate). rewrite E. cbn [fst snd].
    set (parts := a :: b :: t) in *.
    rewrite file_key_written.
    + rewrite enter_joins; [|apply climb_noslash; apply Forall_removelast; exact HF|destruct descent; discriminate].
      f_equal. f_equal. destruct descent; [rewrite enter_rel by (discriminate || reflexivity)|]; reflexivity.
    + apply joins_abs; [apply climb_noslash; apply Forall_removelast; exact HF|destruct descent; discriminate|destruct descent; reflexivity].
    + change a_bsl with s_bsl. apply Hb. rewrite <- E. intros H. assert (HL : Forall (fun e => ~ In slash e) (split_ch 95 (target index name))) by (rewrite E; exact HF).
      destruct (exists_last (split_ch_nonnil 95 (target index name))) as (l & x & E2). rewrite E2 in *. rewrite last_last in H. apply Forall_app in HL. destruct HL as [_ HL]. inversion HL; subst. contradiction.
Qed.
Lemma written_inj f g : f <> [] -> g <> [] -> Forall (fun e => ~ In slash e) f -> Forall (fun e => ~ In slash e) g -> written f = written g -> f = g.
Proof.
  intros Hf Hg Ff Fg H. unfold written in H. injection H as H. apply (f_equal (split_ch 47)) in H.
  rewrite !split_ch_join in H by assumption. exact H.
Qed.
