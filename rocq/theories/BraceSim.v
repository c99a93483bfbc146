(** Base64 lines, objects, whole files. *)
From Verif Require Import PyBase PyText PyB64 Brace Spec_Brace BraceProofs.
Set Implicit Arguments.
Open Scope list_scope.
Open Scope N_scope.

(** what a "\r\n" written by the encoder becomes after a text-mode read *)
Definition fold_nl (nl : list N) : Prop := nl = [LF] \/ nl = [LF; LF].

Definition b64_ok (s : list N) : Prop := ~ In CLOSE s /\ ~ In LF s.

Lemma find_ch_app c a t : ~ In c a -> find_ch c (a ++ c :: t) = Some (length a).
Proof.
  induction a as [|x a IH]; intros H; cbn; [rewrite N.eqb_refl; reflexivity|].
  replace (x =? c) with false. 2: { symmetry; apply N.eqb_neq; intros ->; apply H; left; reflexivity. }
  rewrite IH by (intros H2; apply H; right; exact H2). reflexivity.
Qed.
Lemma find_ch_none c a : ~ In c a -> find_ch c a = None.
Proof.
  induction a as [|x a IH]; intros H; cbn; [reflexivity|].
  replace (x =? c) with false. 2: { symmetry; apply N.eqb_neq; intros ->; apply H; left; reflexivity. }
  rewrite IH by (intros H2; apply H; right; exact H2). reflexivity.
Qed.

Lemma blank_b64 nl X s : fold_nl nl -> md s = MB64 ->
  run_lines (lines (tl nl ++ X)) s = run_lines (lines X) s.
Proof.
  intros [->| ->] Hm; [reflexivity|]. cbn [tl app lines]. change (LF =? LF) with true. cbv iota.
  cbn [run_lines]. unfold decode_line, line_b64. rewrite Hm. reflexivity.
Qed.

(** one full base64 line *)
Lemma b64_full_line x X s v nl : fold_nl nl -> b64_ok x -> x <> [] -> md s = MB64 -> cv s = Some v ->
  run_lines (lines (x ++ nl ++ X)) s = run_lines (lines X) (set_cv (Some (v ++ x)) s).
Proof.
  intros Hnl [Hx1 Hx2] Hne Hm Hv.
  replace (x ++ nl ++ X) with (x ++ LF :: tl nl ++ X) by (destruct Hnl as [->| ->]; reflexivity).
  rewrite lines_line by exact Hx2. cbn [run_lines]. unfold decode_line at 1, line_b64. rewrite Hm.
  replace (str_eqb (x ++ [LF]) [LF]) with false.
  2: { symmetry; apply str_eqb_neq. destruct x as [|a [|]]; try congruence; intros E; discriminate. }
  unfold decode_b64_line. rewrite find_ch_none.
  2: { intros H. apply in_app_or in H. destruct H as [H|[H|[]]]; [auto|discriminate]. }
  rewrite removelast_last. cbn [skipn]. unfold plus_cv. rewrite Hv. cbn [wrap_err bind].
  rewrite blank_b64 by assumption. reflexivity.
Qed.

(** the last base64 line, with the closing brace *)
Lemma b64_last_line x T s v t r : b64_ok x -> md s = MB64 -> cv s = Some v -> is_pc CLOSE s = false -> stack s = t :: r ->
  exists pre', run_lines (lines (x ++ CLOSE :: T)) s = cont pre' T (closed (text s) (roots s) r (t ++ [VStr (v ++ x)])).
Proof.
  intros [Hx1 Hx2] Hm Hv Hpc Hst.
  rewrite lines_first by (destruct x; discriminate). cbn [run_lines].
  rewrite first_line_pre by exact Hx2. cbn [fst snd first_line]. change (CLOSE =? LF) with false. cbv iota.
  destruct (first_line T) as [cur more] eqn:Ef. cbn [fst snd].
  unfold decode_line at 1, line_b64. rewrite Hm.
  replace (str_eqb (x ++ CLOSE :: cur) [LF]) with false.
  2: { symmetry; apply str_eqb_neq. destruct x as [|a x]; [discriminate|]. cbn. intros E. injection E as -> E. destruct x; discriminate. }
  unfold decode_b64_line. rewrite find_ch_app by exact Hx1.
  rewrite firstn_app, firstn_all, Nat.sub_diag. cbn [firstn skipn]. rewrite app_nil_r.
  unfold plus_cv. rewrite Hv. cbn [bind Nat.eqb].
  erewrite end_object_ok; [|exact Hpc|exact Hst]. cbn [bind].
  replace (skipn (length x + 1) (x ++ CLOSE :: cur)) with cur.
  2: { rewrite skipn_app. rewrite skipn_all2 by lia. replace (length x + 1 - length x)%nat with 1%nat by lia. reflexivity. }
  exists []. unfold cont, decode_object. rewrite Ef. reflexivity.
Qed.

Lemma b64_ok_app a b : b64_ok (a ++ b) -> b64_ok a /\ b64_ok b.
Proof. unfold b64_ok. intros [H1 H2]. rewrite in_app_iff in *. tauto. Qed.
Lemma b64_ok_firstn n s : b64_ok s -> b64_ok (firstn n s).
Proof. intros H. rewrite <- (firstn_skipn n s) in H. apply b64_ok_app in H. tauto. Qed.
Lemma b64_ok_skipn n s : b64_ok s -> b64_ok (skipn n s).
Proof. intros H. rewrite <- (firstn_skipn n s) in H. apply b64_ok_app in H. tauto. Qed.

Lemma long_lines nl T t r : fold_nl nl -> forall fuel x s v, (length x < fuel)%nat ->
  b64_ok x -> md s = MB64 -> cv s = Some v -> is_pc CLOSE s = false -> stack s = t :: r ->
  exists pre', run_lines (lines (fold_long nl fuel x ++ CLOSE :: T)) s =
               cont pre' T (closed (text s) (roots s) r (t ++ [VStr (v ++ x)])).
Proof.
  intros Hnl. induction fuel as [|k IH]; intros x s v Hf Hx Hm Hv Hpc Hst; [lia|].
  cbn [fold_long]. destruct (Nat.ltb 64 (length x)) eqn:E.
  - apply Nat.ltb_lt in E. rewrite <- !app_assoc. erewrite b64_full_line; [|exact Hnl| | |exact Hm|exact Hv].
    + destruct (IH (skipn 64 x) (set_cv (Some (v ++ firstn 64 x)) s) (v ++ firstn 64 x)) as [p Hp]; try assumption.
      * rewrite skipn_length. lia.
      * apply b64_ok_skipn; exact Hx.
      * reflexivity.
      * exists p. rewrite Hp. cbn [text roots set_cv]. rewrite <- app_assoc, firstn_skipn. reflexivity.
    + apply b64_ok_firstn; exact Hx.
    + intros H. apply (f_equal (@length N)) in H. rewrite firstn_length in H. cbn [length] in H. lia.
  - eapply b64_last_line; eassumption.
Qed.

Lemma fold_lines nl T t r elem : fold_nl nl -> b64_ok elem -> forall fuel j s, (length elem < fuel + j)%nat ->
  (j <= length elem)%nat -> md s = MB64 -> cv s = Some (firstn j elem) -> is_pc CLOSE s = false -> stack s = t :: r ->
  exists pre', run_lines (lines (firstn 64 (skipn j elem) ++ fold_b64 nl fuel elem (j + 64) ++ CLOSE :: T)) s =
               cont pre' T (closed (text s) (roots s) r (t ++ [VStr elem])).
Proof.
  intros Hnl Hel. induction fuel as [|k IH]; intros j s Hf Hj Hm Hv Hpc Hst; [lia|].
  cbn [fold_b64]. destruct (Nat.leb (j + 64) (length elem)) eqn:E.
  - apply Nat.leb_le in E. rewrite <- !app_assoc.
    erewrite b64_full_line; [|exact Hnl| | |exact Hm|exact Hv].
    + destruct (IH (j + 64)%nat (set_cv (Some (firstn j elem ++ firstn 64 (skipn j elem))) s)) as [p Hp]; try assumption; try lia.
      * cbn [set_cv cv]. f_equal. rewrite <- (firstn_skipn j elem) at 3. rewrite firstn_app.
        rewrite firstn_firstn, firstn_length. replace (Nat.min (j + 64) j) with j by lia.
        replace (j + 64 - Nat.min j (length elem))%nat with 64%nat by lia. reflexivity.
      * exists p. exact Hp.
    + apply b64_ok_firstn, b64_ok_skipn; exact Hel.
    + intros H. apply (f_equal (@length N)) in H. rewrite firstn_length, skipn_length in H. cbn [length] in H. lia.
  - apply Nat.leb_gt in E. cbn [app].
    rewrite (firstn_all2 (n := 64) (skipn j elem)) by (rewrite skipn_length; lia).
    destruct (@b64_last_line (skipn j elem) T s (firstn j elem) t r) as [p Hp]; try assumption.
    + apply b64_ok_skipn; exact Hel.
    + exists p. rewrite Hp, firstn_skipn. reflexivity.
Qed.

(** ** Opening an object *)
Definition bigctx (rs : list val) (st : list (list val)) : bool :=
  match rs with
  | [] => match rev st with [x] :: _ => is_val_1 x | _ => false end
  | _ => false
  end.

Lemma close_into_rev : forall r t,
  match rev (t :: r) with [] => False | b :: rr => exists y, close_into t r = match rr with [] => t | _ => b ++ [y] end /\ (rr = [] -> r = []) end.
Proof.
  induction r as [|p r IH]; intros t.
  - cbn. exists VNone. split; [reflexivity|auto].
  - cbn [close_into]. specialize (IH (p ++ [VList t])).
    change (rev (t :: p :: r)) with (rev (p :: r) ++ [t]).
    cbn [rev] in *. destruct (rev r) as [|b rr] eqn:Er.
    + assert (r = []) as -> by (rewrite <- (rev_involutive r), Er; reflexivity).
      cbn in *. exists (VList t). split; [reflexivity|discriminate].
    + cbn [app] in *. destruct IH as (y & H1 & H2). exists y. split.
      * rewrite H1. destruct rr; reflexivity.
      * destruct rr; discriminate.
Qed.

Lemma big_shape_ctx s : big_shape (data_of (mkst (md s) (text s) (roots s) ([] :: stack s) (Some []) (pc s))) = true ->
  bigctx (roots s) (stack s) = true.
Proof.
  unfold data_of. cbn [stack roots]. unfold bigctx.
  destruct (roots s) as [|r0 rs].
  - cbn [app]. destruct (stack s) as [|t r]; [discriminate|]. cbn [close_into].
    pose proof (close_into_rev r (t ++ [VList []])) as H.
    destruct (rev r) as [|b rr] eqn:Er.
    + assert (r = []) as -> by (rewrite <- (rev_involutive r), Er; reflexivity). cbn.
      destruct t as [|x [|y [|z t]]]; cbn; try discriminate. auto.
    + cbn [rev] in *. rewrite Er in *. cbn [app] in *. destruct H as (y & H1 & H2).
      rewrite H1. destruct (rr ++ [t ++ [VList []]]) eqn:E; [destruct rr; discriminate|].
      destruct b as [|x [|z b]]; cbn; try discriminate; auto.
      destruct b; cbn; discriminate.
  - cbn [app]. destruct (rs ++ _) as [|z zs] eqn:E; [destruct rs; discriminate|].
    destruct r0 as [| |l]; cbn; try discriminate. destruct l as [|? [|? [|]]]; discriminate.
Qed.

Lemma starts_first_line p X : ~ In LF p -> starts p (fst (first_line X)) = starts p X.
Proof.
  revert X; induction p as [|c p IH]; intros X H; [destruct X; reflexivity|].
  destruct X as [|x X]; [reflexivity|]. cbn [first_line]. destruct (x =? LF) eqn:E.
  - apply N.eqb_eq in E; subst. cbn. replace (c =? LF) with false; [reflexivity|].
    symmetry; apply N.eqb_neq; intros ->; apply H; left; reflexivity.
  - destruct (first_line X) as [a b] eqn:Ef. cbn [fst starts].
    specialize (IH X (fun h => H (or_intror h))). rewrite Ef in IH. cbn in IH. rewrite IH. reflexivity.
Qed.

Lemma starts_sep p x c t : ~ In c p -> starts p (x ++ c :: t) = starts p x.
Proof.
  revert x; induction p as [|d p IH]; intros x H; [destruct x; reflexivity|].
  destruct x as [|y x]; cbn.
  - replace (d =? c) with false; [reflexivity|]. symmetry; apply N.eqb_neq; intros ->; apply H; left; reflexivity.
  - rewrite IH; [reflexivity|]. intros H2; apply H; right; exact H2.
Qed.

Definition opened (s : bst) : bst := mkst (md s) (text s) (roots s) ([] :: stack s) (Some []) (pc s).

Lemma open_plain X s : md s = MParam -> X <> [] -> starts hash_base64 X = false ->
  run_lines (lines (OPEN :: X)) s = cont [] X (opened s).
Proof.
  intros Hm HX Hs. rewrite lines_first by discriminate. cbn [run_lines first_line].
  change (OPEN =? LF) with false. cbv iota.
  destruct (first_line X) as [cur more] eqn:Ef. cbn [fst snd].
  unfold decode_line at 1. rewrite Hm. unfold line_param. change (OPEN =? OPEN) with true. cbv iota zeta.
  replace (starts (OPEN :: hash_base64) (OPEN :: cur)) with false.
  2: { cbn [starts]. change (OPEN =? OPEN) with true. cbn [andb]. symmetry.
       replace cur with (fst (first_line X)) by (rewrite Ef; reflexivity).
       rewrite starts_first_line; [exact Hs|]. cbn. intuition discriminate. }
  unfold cont, decode_object. rewrite Ef. cbn [app length N.of_nat]. reflexivity.
Qed.

(** the two binary forms *)
Lemma payload_b64_ok s : Forall payload_char s -> b64_ok s.
Proof.
  intros H. rewrite Forall_forall in H. split; intros Hin; apply H in Hin; apply Hin; cbn; auto.
Qed.

Lemma starts_trans p q s : starts p q = true -> starts q s = true -> starts p s = true.
Proof.
  rewrite !starts_spec. intros [a ->] [b ->]. exists (a ++ b). rewrite <- app_assoc. reflexivity.
Qed.

Lemma obj_folded nl elem T s : fold_nl nl -> b64_folded elem -> md s = MParam -> is_pc CLOSE s = false ->
  bigctx (roots s) (stack s) = false ->
  exists pre', run_lines (lines (OPEN :: enc_str nl elem ++ CLOSE :: T)) s =
    cont pre' T (closed (text s) (roots s) (stack s) [VStr elem]).
Proof.
  intros Hnl (Hs & Hlen & Hp) Hm Hpc Hbig.
  assert (Hok := payload_b64_ok Hp).
  unfold enc_str. rewrite Hs.
  replace (fold_b64 nl (S (length elem)) elem 72) with (nl ++ firstn 64 (skipn 72 elem) ++ fold_b64 nl (length elem) elem (72 + 64)).
  2: { cbn [fold_b64]. apply Nat.leb_le in Hlen. rewrite Hlen. reflexivity. }
  set (R := firstn 64 (skipn 72 elem) ++ fold_b64 nl (length elem) elem (72 + 64) ++ CLOSE :: T).
  replace (OPEN :: (firstn 72 elem ++ nl ++ firstn 64 (skipn 72 elem) ++ fold_b64 nl (length elem) elem (72 + 64)) ++ CLOSE :: T)
    with ((OPEN :: firstn 72 elem) ++ LF :: tl nl ++ R).
  2: { unfold R. cbn [app]. f_equal. rewrite <- !app_assoc. f_equal. destruct Hnl as [->| ->]; reflexivity. }
  rewrite lines_line.
  2: { intros [H|H]; [discriminate|]. apply (proj2 (b64_ok_firstn 72 Hok)); exact H. }
  cbn [run_lines app]. unfold decode_line at 1. rewrite Hm. unfold line_param. change (OPEN =? OPEN) with true. cbv iota zeta.
  replace (starts (OPEN :: hash_base64) (OPEN :: firstn 72 elem ++ [LF])) with true.
  2: { symmetry. apply starts_spec in Hs. destruct Hs as [e ->]. reflexivity. }
  replace (big_shape (data_of (mkst (md s) (text s) (roots s) ([] :: stack s) (Some []) (pc s)))) with false.
  2: { symmetry. destruct (big_shape _) eqn:E; [|reflexivity]. apply big_shape_ctx in E. congruence. }
  unfold decode_b64_line. rewrite find_ch_none.
  2: { intros [H|H]; [discriminate|]. apply in_app_or in H. destruct H as [H|[H|[]]]; [|discriminate].
       apply (proj1 (b64_ok_firstn 72 Hok)); exact H. }
  replace (skipn 1 (removelast (OPEN :: firstn 72 elem ++ [LF]))) with (firstn 72 elem).
  2: { change (OPEN :: firstn 72 elem ++ [LF]) with ((OPEN :: firstn 72 elem) ++ [LF]). rewrite removelast_last. reflexivity. }
  unfold plus_cv, set_md, set_cv. cbn [cv md text roots stack pc wrap_err bind app].
  rewrite blank_b64; [|exact Hnl|reflexivity].
  unfold R.
  destruct (@fold_lines nl T [] (stack s) elem Hnl Hok (length elem) 72
             (mkst MB64 (text s) (roots s) ([] :: stack s) (Some (firstn 72 elem)) (pc s))) as [p Hp']; try reflexivity; try assumption; try lia.
  exists p. exact Hp'.
Qed.

Lemma obj_line nl elem T s : b64_line elem -> md s = MParam -> is_pc CLOSE s = false ->
  bigctx (roots s) (stack s) = false ->
  exists pre', run_lines (lines (OPEN :: enc_str nl elem ++ CLOSE :: T)) s =
    cont pre' T (closed (text s) (roots s) (stack s) [VStr elem]).
Proof.
  intros (Hs & Hp) Hm Hpc Hbig.
  assert (Hok := payload_b64_ok Hp).
  apply starts_spec in Hs. destruct Hs as [e He].
  set (x := skipn 1 elem).
  assert (Hx : elem = 35 :: x) by (unfold x; rewrite He; reflexivity).
  assert (Hxok : b64_ok x) by (apply b64_ok_skipn; exact Hok).
  replace (enc_str nl elem) with x.
  2: { unfold enc_str. replace (starts p_base64 elem) with false by (rewrite He; reflexivity).
       replace (starts pp_base64 elem) with true by (rewrite He; reflexivity). reflexivity. }
  rewrite lines_first by discriminate. cbn [run_lines].
  change (OPEN :: x ++ CLOSE :: T) with ((OPEN :: x) ++ CLOSE :: T).
  rewrite first_line_pre by (intros [H|H]; [discriminate|apply (proj2 Hxok); exact H]).
  cbn [fst snd first_line]. change (CLOSE =? LF) with false. cbv iota.
  destruct (first_line T) as [cur more] eqn:Ef. cbn [fst snd].
  unfold decode_line at 1. rewrite Hm. unfold line_param. cbn [app]. change (OPEN =? OPEN) with true. cbv iota zeta.
  replace (starts (OPEN :: hash_base64) (OPEN :: x ++ CLOSE :: cur)) with true.
  2: { symmetry. unfold x. rewrite He. reflexivity. }
  replace (big_shape (data_of (mkst (md s) (text s) (roots s) ([] :: stack s) (Some []) (pc s)))) with false.
  2: { symmetry. destruct (big_shape _) eqn:E; [|reflexivity]. apply big_shape_ctx in E. congruence. }
  unfold decode_b64_line.
  change (OPEN :: x ++ CLOSE :: cur) with ((OPEN :: x) ++ CLOSE :: cur).
  rewrite find_ch_app by (intros [H|H]; [discriminate|apply (proj1 Hxok); exact H]).
  rewrite firstn_app, firstn_all, Nat.sub_diag. cbn [firstn skipn]. rewrite app_nil_r. cbn [skipn].
  unfold plus_cv, set_md, set_cv. cbn [cv md text roots stack pc bind app Nat.eqb].
  rewrite <- Hx.
  erewrite end_object_ok; [|exact Hpc|reflexivity]. cbn [bind text roots oval cv app].
  exists []. unfold cont, decode_object. rewrite Ef.
  replace (skipn (length (OPEN :: x) + 1) (OPEN :: x ++ CLOSE :: cur)) with cur; [reflexivity|].
  change (OPEN :: x ++ CLOSE :: cur) with ((OPEN :: x) ++ CLOSE :: cur).
  rewrite skipn_app. rewrite skipn_all2 by lia.
  replace (length (OPEN :: x) + 1 - length (OPEN :: x))%nat with 1%nat by lia. reflexivity.
Qed.
