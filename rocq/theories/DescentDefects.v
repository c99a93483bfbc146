(** Names on which the version scheme goes wrong. *)
From Verif Require Import PyBase PyInt Paths Descent Spec_Descent DescentProofs.
Set Implicit Arguments.
Open Scope list_scope.
Open Scope Z_scope.

Lemma remove_noncanonical a v b z : ~ In 46%N v -> ~ In 46%N b -> int_of_str v = Ok z -> str_of_int z <> v ->
  remove_descent_from_filename (a ++ 46%N :: v ++ 46%N :: b) = None.
Proof.
  intros Hv Hb Hz Hne. unfold remove_descent_from_filename. rewrite split_len, !dots_dot.
  destruct (Nat.ltb_spec (S (S (dots a + S (dots v + dots b)))) 3); [lia|].
  change 46%N with DOT. rewrite !split_ch_app, (@split_ch_nosep DOT _ Hb), (@split_ch_nosep DOT _ Hv).
  cbn [app]. change [v; b] with ([v] ++ [b]). rewrite app_assoc, removelast_app1, last_app, Hz.
  apply str_eqb_neq in Hne. rewrite Hne. reflexivity.
Qed.

Lemma noext_name s d : ~ In 46%N s -> d <> 0 -> get_descent_file_name s d = str_of_int d ++ 46%N :: s.
Proof.
  intros Hs Hd. unfold get_descent_file_name. destruct (Z.eqb_spec d 0); [contradiction|].
  rewrite (@split_ch_nosep DOT _ Hs). reflexivity.
Qed.
Lemma noext_remove s d : ~ In 46%N s -> d <> 0 ->
  remove_descent_from_filename (get_descent_file_name s d) = Some (get_descent_file_name s d).
Proof.
  intros Hs Hd. rewrite noext_name by assumption. apply remove_short. rewrite dots_dot.
  assert (dots s = 0%nat) by (apply dots_0; exact Hs).
  assert (dots (str_of_int d) = 0%nat) by (apply dots_0; apply int_nodot). lia.
Qed.
Lemma noext_near s d v : ~ In 46%N s -> 0 < d <= v ->
  get_near_descent_file_name [(get_descent_file_name s d, true)] s v = Some (46%N :: str_of_int d ++ 46%N :: s).
Proof.
  intros Hs Hd. rewrite noext_name by (auto; lia). unfold get_near_descent_file_name.
  rewrite (@split_ch_nosep DOT _ Hs). cbn [removelast last join length near_scan starts andb app].
  assert (ends s (str_of_int d ++ 46%N :: s) = true) as ->.
  { apply ends_spec. exists (str_of_int d ++ [46%N]). rewrite <- app_assoc. reflexivity. }
  assert (str_eqb (str_of_int d ++ 46%N :: s) s = false) as ->.
  { apply str_eqb_neq. intros E. apply (f_equal (@length N)) in E. rewrite app_length in E. cbn [length] in E. lia. }
  change 46%N with DOT at 1 2. rewrite !split_ch_app, (@split_ch_nosep DOT _ Hs), (@split_ch_nosep DOT _ (@int_nodot d)).
  cbn [app length Nat.sub Nat.eqb negb removelast last]. rewrite int_of_str_of_int. cbn [first_max].
  destruct (d >? v) eqn:E; [lia|]. reflexivity.
Qed.

(** a file of another name is taken for a version of this one *)
Lemma collide n t d v : good_ext n -> ~ In 46%N t -> t <> [] -> 0 < d <= v ->
  get_near_descent_file_name [(versioned (mkname (stem n ++ t) (ext n)) d, true)] (plain_of n) v = Some (versioned n d).
Proof.
  intros Hg Ht Hne Hd. unfold get_near_descent_file_name. rewrite (split_plain Hg), removelast_app1, last_app, join_split_ch.
  set (m := mkname (stem n ++ t) (ext n)).
  assert (Hgm : good_ext m) by exact Hg.
  cbn [near_scan].
  assert (starts (stem n) (versioned m d) = true) as ->.
  { unfold versioned, m; cbn [stem ext]. rewrite <- app_assoc. apply starts_app. }
  assert (ends (ext n) (versioned m d) = true) as -> by (apply (ends_versioned m)).
  cbn [andb].
  assert (str_eqb (versioned m d) (plain_of n) = false) as ->.
  { apply str_eqb_neq. intros E. apply (f_equal dots) in E. rewrite dots_versioned, dots_plain in E.
    unfold m in E; cbn [stem ext] in E. rewrite dots_app in E. lia. }
  rewrite (split_versioned d Hgm). rewrite !app_length. cbn [length]. rewrite !split_len.
  assert (dots (stem m) = dots (stem n)).
  { unfold m; cbn [stem]. rewrite dots_app. assert (dots t = 0%nat) by (apply dots_0; exact Ht). lia. }
  destruct (Nat.eqb_spec (S (dots (stem m)) + 2 - 1) (S (dots (stem n)) + 1)); [|lia]. cbn [negb].
  change [str_of_int d; ext m] with ([str_of_int d] ++ [ext m]). rewrite app_assoc, removelast_app1, last_app, int_of_str_of_int.
  cbn [first_max]. destruct (d >? v) eqn:E; [lia|]. reflexivity.
Qed.
