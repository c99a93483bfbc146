(** Simulation proof: the decoder state after consuming the encoding of a value. *)
From Verif Require Import PyBase PyText PyB64 Brace Spec_Brace.
Set Implicit Arguments.
Open Scope list_scope.
Open Scope N_scope.

(** the rest of the current line, then the rest of the file; [pre] is the part of the current
    decode_object argument already consumed *)
Definition cont (pre T : list N) (s : bst) : res bst :=
  let (cur, more) := first_line T in
  s' <- wrap_err (dobj (pre ++ cur) (N.of_nat (length pre)) cur s) ;; run_lines (lines more) s'.

Lemma cont_nonlf pre c T s f : c <> LF ->
  (forall line i t, dobj line i (c :: t) s = (x <- f ;; dobj line (i + 1) t x)) ->
  cont pre (c :: T) s = match f with Ok x => cont (pre ++ [c]) T x | Err e => wrap_err (Err e) end.
Proof.
  intros Hc H. unfold cont. cbn [first_line]. apply N.eqb_neq in Hc; rewrite Hc.
  destruct (first_line T) as [cur more]. rewrite H.
  replace (N.of_nat (length pre) + 1) with (N.of_nat (length (pre ++ [c]))).
  2: { rewrite app_length; cbn; lia. }
  replace (pre ++ c :: cur) with ((pre ++ [c]) ++ cur) by (rewrite <- app_assoc; reflexivity).
  destruct f as [x|e]; cbn [bind]; [reflexivity|]. destruct e; reflexivity.
Qed.

Lemma cont_lf_param pre T s : md s = MParam -> cont pre (LF :: T) s = run_lines (lines T) s.
Proof.
  intros H. unfold cont. cbn [first_line]. change (LF =? LF) with true. cbv iota. cbn [dobj]. rewrite H.
  cbn. reflexivity.
Qed.

Definition sep (c : N) : Prop := c = COMMA \/ c = CLOSE.

Lemma plain_neq c : plain_char c -> (c =? COMMA) = false /\ (c =? CLOSE) = false /\ (c =? QUOTE) = false /\ (c =? LF) = false.
Proof.
  unfold plain_char. intros H. repeat split; apply N.eqb_neq; intros ->; apply H; cbn; auto.
Qed.

Lemma cont_plain1 pre c T s : md s = MParam -> plain_char c ->
  cont pre (c :: T) s = cont (pre ++ [c]) T (add_cv [c] s).
Proof.
  intros Hm Hc. destruct (plain_neq Hc) as (H1 & H2 & H3 & H4).
  rewrite (@cont_nonlf pre c T s (Ok (add_cv [c] s))); [reflexivity| |].
  - apply N.eqb_neq; exact H4.
  - intros line i t. cbn [dobj]. rewrite Hm, H1, H2, H3, H4. reflexivity.
Qed.

Definition cat_cv (v : option (list N)) (x : list N) : option (list N) :=
  Some (match v with Some y => y ++ x | None => x end).

Lemma cont_plain x : plain x -> x <> [] -> forall pre T s, md s = MParam ->
  cont pre (x ++ T) s =
  cont (pre ++ x) T (mkst MParam (text s) (roots s) (stack s) (cat_cv (cv s) x) (Some [last x 0])).
Proof.
  intros Hx. induction Hx as [|c x Hc Hx IH]; [congruence|]. intros _ pre T s Hm.
  cbn [app]. rewrite cont_plain1 by assumption.
  destruct x as [|d x].
  - cbn [app]. unfold add_cv, cat_cv. rewrite Hm. destruct (cv s); reflexivity.
  - rewrite IH by (try discriminate; exact Hm). rewrite <- app_assoc. unfold add_cv, cat_cv. cbn [cv text roots stack].
    f_equal. f_equal. destruct (cv s); cbn; [|reflexivity]. rewrite <- app_assoc. reflexivity.
Qed.

Lemma end_value_ok s t r : is_pc CLOSE s = false -> stack s = t :: r ->
  end_value s = Ok (mkst MParam (text s) (roots s) ((t ++ [oval (cv s)]) :: r) (Some []) (Some [COMMA])).
Proof. intros H1 H2. unfold end_value. rewrite H1, H2. reflexivity. Qed.

Definition push (v : val) (rs : list val) (st : list (list val)) : list val * list (list val) :=
  match st with [] => (rs ++ [v], []) | p :: r => (rs, (p ++ [v]) :: r) end.
Definition closed (tx : list N) (rs : list val) (outer : list (list val)) (l : list val) : bst :=
  mkst MParam tx (fst (push (VList l) rs outer)) (snd (push (VList l) rs outer)) None (Some [CLOSE]).

Lemma end_object_ok s t r : is_pc CLOSE s = false -> stack s = t :: r ->
  end_object s = Ok (closed (text s) (roots s) r (t ++ [oval (cv s)])).
Proof.
  intros H1 H2. unfold end_object. rewrite (end_value_ok s H1 H2). cbn [bind stack md text roots].
  destruct r as [|p r]; reflexivity.
Qed.
Lemma end_object_after s t r : is_pc CLOSE s = true -> stack s = t :: r ->
  end_object s = Ok (closed (text s) (roots s) r t).
Proof.
  intros H1 H2. unfold end_object, end_value. rewrite H1. cbn [bind stack md text roots]. rewrite H2.
  destruct r as [|p r]; reflexivity.
Qed.

Lemma cont_comma pre T s s' : md s = MParam \/ md s = MEnd -> end_value s = Ok s' ->
  cont pre (COMMA :: T) s = cont (pre ++ [COMMA]) T s'.
Proof.
  intros Hm H. rewrite (@cont_nonlf pre COMMA T s (Ok s')); [reflexivity|discriminate|].
  intros line i t. cbn [dobj]. destruct Hm as [-> | ->]; cbn; rewrite H; reflexivity.
Qed.
Lemma cont_close pre T s s' : md s = MParam \/ md s = MEnd -> end_object s = Ok s' ->
  cont pre (CLOSE :: T) s = cont (pre ++ [CLOSE]) T s'.
Proof.
  intros Hm H. rewrite (@cont_nonlf pre CLOSE T s (Ok s')); [reflexivity|discriminate|].
  intros line i t. cbn [dobj]. destruct Hm as [-> | ->]; cbn; rewrite H; reflexivity.
Qed.

(** ** Quoted strings *)
Lemma decode_object_cont T s : T <> [] ->
  (s' <- wrap_err (decode_object (fst (first_line T)) s) ;; run_lines (lines (snd (first_line T))) s') = cont [] T s.
Proof. intros H. unfold cont, decode_object. destruct (first_line T) as [a b]; reflexivity. Qed.

Lemma cont_begin_line T s : md s = MBegin -> run_lines (lines T) s = cont [] T s.
Proof.
  intros Hm. destruct T as [|c T]; [reflexivity|].
  rewrite lines_first by discriminate. cbn [run_lines]. unfold decode_line. rewrite Hm.
  apply decode_object_cont; discriminate.
Qed.

Definition in_end (v : list N) (s : bst) : bst :=
  mkst MEnd (text s) (roots s) (stack s) (Some v) (Some [QUOTE]).

Lemma cont_begin_char pre c T s : md s = MBegin -> c <> QUOTE ->
  exists pre', cont pre (c :: T) s = cont pre' T (add_cv [c] s).
Proof.
  intros Hm Hc. destruct (N.eq_dec c LF) as [->|Hl].
  - exists []. unfold cont at 1. cbn [first_line]. change (LF =? LF) with true. cbv iota. cbn [dobj]. rewrite Hm.
    change (LF =? QUOTE) with false. cbv iota. cbn [wrap_err bind dobj].
    apply cont_begin_line. exact Hm.
  - exists (pre ++ [c]). apply N.eqb_neq in Hc.
    rewrite (@cont_nonlf pre c T s (Ok (add_cv [c] s))); [reflexivity|exact Hl|].
    intros line i t. cbn [dobj]. rewrite Hm, Hc. reflexivity.
Qed.
Lemma cont_begin_quote pre T s : md s = MBegin ->
  cont pre (QUOTE :: T) s = cont (pre ++ [QUOTE]) T (add_cv [QUOTE] (set_md MEnd s)).
Proof.
  intros Hm. rewrite (@cont_nonlf pre QUOTE T s (Ok (add_cv [QUOTE] (set_md MEnd s)))); [reflexivity|discriminate|].
  intros line i t. cbn [dobj]. rewrite Hm. reflexivity.
Qed.
Lemma cont_end_quote pre T s : md s = MEnd ->
  cont pre (QUOTE :: T) s = cont (pre ++ [QUOTE]) T (add_cv [QUOTE] (set_md MBegin s)).
Proof.
  intros Hm. rewrite (@cont_nonlf pre QUOTE T s (Ok (add_cv [QUOTE] (set_md MBegin s)))); [reflexivity|discriminate|].
  intros line i t. cbn [dobj]. rewrite Hm. reflexivity.
Qed.

Lemma string_body body : doubled body -> forall pre T s v, md s = MBegin -> cv s = Some v ->
  exists pre', cont pre (body ++ QUOTE :: T) s = cont pre' T (in_end (v ++ body ++ [QUOTE]) s).
Proof.
  intros Hd; induction Hd as [|c t Hc Hd IH|t Hd IH]; intros pre T s v Hm Hv; cbn [app].
  - eexists. rewrite cont_begin_quote by exact Hm. unfold add_cv, set_md, in_end. cbn. rewrite Hv. reflexivity.
  - destruct (@cont_begin_char pre c (t ++ QUOTE :: T) s Hm Hc) as [p1 ->].
    destruct (IH p1 T (add_cv [c] s) (v ++ [c])) as [p2 ->]; [exact Hm|cbn; rewrite Hv; reflexivity|].
    exists p2. unfold in_end, add_cv. cbn. rewrite <- app_assoc. reflexivity.
  - rewrite cont_begin_quote by exact Hm. rewrite cont_end_quote by reflexivity.
    destruct (IH ((pre ++ [QUOTE]) ++ [QUOTE]) T (add_cv [QUOTE] (set_md MBegin (add_cv [QUOTE] (set_md MEnd s)))) (v ++ [QUOTE; QUOTE])) as [p2 ->].
    + reflexivity.
    + cbn. rewrite Hv. rewrite <- app_assoc. reflexivity.
    + exists p2. unfold in_end, add_cv. cbn. rewrite <- app_assoc. reflexivity.
Qed.

Lemma count_qq_le : forall n x, (length x <= n)%nat -> (count_qq x * 2 <= count_ch QUOTE x)%nat.
Proof.
  induction n as [|n IH]; intros x Hx; [destruct x; [cbn; lia|cbn in Hx; lia]|].
  destruct x as [|a t]; [cbn; lia|]. cbn in Hx. cbn [count_qq count_ch].
  destruct (a =? QUOTE) eqn:E.
  - destruct t as [|b t2]; [cbn; lia|]. cbn in Hx. cbn [count_ch].
    assert (H := IH t2 ltac:(lia)). destruct (b =? QUOTE); lia.
  - apply IH; lia.
Qed.
Lemma count_doubled l : doubled l -> forall r,
  count_qq (l ++ r) = (count_qq l + count_qq r)%nat /\ count_ch QUOTE (l ++ r) = (2 * count_qq l + count_ch QUOTE r)%nat.
Proof.
  induction 1 as [|c t Hc Hd IH|t Hd IH]; intros r; cbn [app].
  - split; reflexivity.
  - destruct (IH r) as [H1 H2]. cbn [count_qq count_ch]. apply N.eqb_neq in Hc; rewrite Hc. split; assumption.
  - destruct (IH r) as [H1 H2]. cbn [count_qq count_ch]. change (QUOTE =? QUOTE) with true. cbv iota. rewrite H1, H2. lia.
Qed.
Lemma count_end l c r : doubled l -> c <> QUOTE ->
  Nat.eqb (count_qq (l ++ QUOTE :: c :: r) * 2) (count_ch QUOTE (l ++ QUOTE :: c :: r)) = false.
Proof.
  intros Hl Hc. destruct (count_doubled Hl (QUOTE :: c :: r)) as [-> ->].
  apply N.eqb_neq in Hc. cbn [count_qq count_ch]. change (QUOTE =? QUOTE) with true. cbv iota. rewrite Hc.
  assert (H := @count_qq_le _ r (Nat.le_refl _)). apply Nat.eqb_neq. lia.
Qed.
Lemma count_in l : doubled l -> Nat.eqb (count_qq l * 2) (count_ch QUOTE l) = true.
Proof.
  intros Hl. destruct (count_doubled Hl []) as [_ H]. rewrite app_nil_r in H. rewrite H. cbn. apply Nat.eqb_eq. lia.
Qed.

Lemma doubled_split l : forall t, doubled (l ++ LF :: t) -> doubled l /\ doubled t.
Proof.
  enough (H : forall n l t, (length l <= n)%nat -> doubled (l ++ LF :: t) -> doubled l /\ doubled t)
    by (intros t; apply (H (length l)); lia).
  induction n as [|n IH]; intros l' t Hn Hd.
  - destruct l'; [|cbn in Hn; lia]. cbn in Hd. inversion Hd; subst. split; [constructor|assumption].
  - destruct l' as [|c l']; cbn in Hd.
    + inversion Hd; subst. split; [constructor|assumption].
    + cbn in Hn. remember (c :: l' ++ LF :: t) as w eqn:Hw. destruct Hd as [|c' w' Hc Hd'|w' Hd']; [discriminate| |].
      * injection Hw as -> ->. destruct (IH l' t) as [A B]; [lia|exact Hd'|]. split; [constructor; assumption|exact B].
      * injection Hw as <- Hw. destruct l' as [|d l'']; cbn in *; [discriminate|].
        injection Hw as <- ->. destruct (IH l'' t) as [A B]; [lia|exact Hd'|]. split; [apply dq_quote; exact A|exact B].
Qed.

Lemma in_split_first (x : N) l : In x l -> exists a b, l = a ++ x :: b /\ ~ In x a.
Proof.
  induction l as [|c l IH]; [intros []|]. intros H. destruct (N.eq_dec c x) as [->|Hc].
  - exists [], l. split; [reflexivity|intros []].
  - destruct H as [->|H]; [congruence|]. destruct (IH H) as (a & b & -> & Ha).
    exists (c :: a), b. split; [reflexivity|]. intros [->|H2]; [congruence|auto].
Qed.

Lemma first_line_pre a T : ~ In LF a -> first_line (a ++ T) = (a ++ fst (first_line T), snd (first_line T)).
Proof.
  induction a as [|c a IH]; intros H; cbn [app first_line]; [destruct (first_line T); reflexivity|].
  replace (c =? LF) with false. 2: { symmetry; apply N.eqb_neq; intros ->; apply H; left; reflexivity. }
  rewrite IH by (intros H2; apply H; right; exact H2). reflexivity.
Qed.

Lemma multi_body n : forall body, (length body <= n)%nat -> doubled body -> forall c T s v,
  c <> QUOTE -> c <> LF -> md s = MMulti -> cv s = Some v ->
  exists pre', run_lines (lines (body ++ QUOTE :: c :: T)) s = cont pre' (c :: T) (in_end (v ++ body ++ [QUOTE]) s).
Proof.
  induction n as [n IHn] using lt_wf_ind. intros body Hn Hd c T s v Hc Hcl Hm Hv.
  destruct (in_dec N.eq_dec LF body) as [Hin|Hni].
  - destruct (in_split_first _ _ Hin) as (l & b' & -> & Hl).
    destruct (doubled_split _ _ Hd) as [Hdl Hdb].
    rewrite <- app_assoc. cbn [app]. rewrite lines_line by exact Hl. cbn [run_lines].
    unfold decode_line. rewrite Hm. unfold line_multi.
    assert (Hd1 : doubled (l ++ [LF])).
    { clear -Hdl. induction Hdl; cbn; [apply dq_char; [discriminate|constructor]|apply dq_char; auto|apply dq_quote; auto]. }
    rewrite (count_in Hd1). cbn [negb]. unfold plus_cv. rewrite Hv. cbn [wrap_err bind].
    rewrite app_length in Hn; cbn in Hn.
    destruct (IHn (length b') ltac:(lia) b' (Nat.le_refl _) Hdb c T (set_cv (Some (v ++ l ++ [LF])) s) (v ++ l ++ [LF])) as [p ->];
      [exact Hc|exact Hcl|exact Hm|reflexivity|].
    exists p. unfold in_end, set_cv. cbn. f_equal. f_equal. f_equal. rewrite <- !app_assoc. reflexivity.
  - rewrite lines_first by (destruct body; discriminate). cbn [run_lines]. unfold decode_line. rewrite Hm.
    unfold line_multi.
    replace (fst (first_line (body ++ QUOTE :: c :: T))) with (body ++ QUOTE :: c :: fst (first_line T)).
    2: { rewrite first_line_pre by exact Hni. cbn [fst first_line]. change (QUOTE =? LF) with false. cbv iota.
         apply N.eqb_neq in Hcl; rewrite Hcl. destruct (first_line T); reflexivity. }
    rewrite count_end by assumption. cbn [negb].
    replace (body ++ QUOTE :: c :: fst (first_line T)) with (fst (first_line (body ++ QUOTE :: c :: T))).
    2: { rewrite first_line_pre by exact Hni. cbn [fst first_line]. change (QUOTE =? LF) with false. cbv iota.
         apply N.eqb_neq in Hcl; rewrite Hcl. destruct (first_line T); reflexivity. }
    rewrite decode_object_cont by (destruct body; discriminate).
    destruct (string_body Hd [] (c :: T) (set_md MBegin s) (v := v)) as [p Hp]; [reflexivity|exact Hv|].
    exists p. rewrite Hp. reflexivity.
Qed.

Lemma ends_app_last p c l x : ends (p ++ [c]) (l ++ [x]) = true -> x = c.
Proof.
  intros H. apply ends_spec in H. destruct H as [t H]. rewrite app_assoc in H.
  apply app_inj_tail in H. destruct H; congruence.
Qed.

(** the two ways a string literal can start *)
Lemma cont_quote pre T s : md s = MParam ->
  cont pre (QUOTE :: T) s = cont (pre ++ [QUOTE]) T (add_cv [QUOTE] (set_md MBegin s)) \/
  (exists T', T = LF :: T' /\ cont pre (QUOTE :: T) s = run_lines (lines T') (add_cv [QUOTE; LF] (set_md MMulti s))).
Proof.
  intros Hm. unfold cont. cbn [first_line]. change (QUOTE =? LF) with false. cbv iota.
  destruct (first_line T) as [cur more] eqn:Ef.
  cbn [dobj]. rewrite Hm. change (QUOTE =? COMMA) with false. change (QUOTE =? CLOSE) with false.
  change (QUOTE =? QUOTE) with true. cbv iota.
  destruct (ends multi_tail (pre ++ QUOTE :: cur) && (N.of_nat (length pre) + 2 =? N.of_nat (length (pre ++ QUOTE :: cur)))) eqn:E.
  - right. apply andb_true_iff in E. destruct E as [E1 E2]. apply N.eqb_eq in E2.
    rewrite app_length in E2. cbn in E2.
    destruct cur as [|x [|y cur]]; cbn in E2; try lia.
    replace (pre ++ [QUOTE; x]) with ((pre ++ [QUOTE]) ++ [x]) in E1 by (rewrite <- app_assoc; reflexivity).
    assert (x = LF) as -> by (eapply (@ends_app_last [COMMA; QUOTE]); exact E1).
    destruct T as [|d T']; [discriminate|]. cbn in Ef. destruct (d =? LF) eqn:Ed.
    + apply N.eqb_eq in Ed; subst d. injection Ef as <-. exists T'. split; [reflexivity|]. reflexivity.
    + destruct (first_line T'); injection Ef as -> -> ->. discriminate.
  - left. replace (N.of_nat (length pre) + 1) with (N.of_nat (length (pre ++ [QUOTE]))).
    2: { rewrite app_length; cbn; lia. }
    replace (pre ++ QUOTE :: cur) with ((pre ++ [QUOTE]) ++ cur) by (rewrite <- app_assoc; reflexivity).
    reflexivity.
Qed.

Lemma cont_quoted body c : doubled body -> sep c -> forall pre T s, md s = MParam ->
  exists pre', cont pre (QUOTE :: body ++ QUOTE :: c :: T) s =
    cont pre' (c :: T) (mkst MEnd (text s) (roots s) (stack s) (cat_cv (cv s) (QUOTE :: body ++ [QUOTE])) (Some [QUOTE])).
Proof.
  intros Hd Hc pre T s Hm.
  assert (Hcq : c <> QUOTE) by (destruct Hc as [-> | ->]; discriminate).
  assert (Hcl : c <> LF) by (destruct Hc as [-> | ->]; discriminate).
  destruct (cont_quote pre (body ++ QUOTE :: c :: T) s Hm) as [->|(T' & HT & ->)].
  - destruct (string_body Hd (pre ++ [QUOTE]) (c :: T) (add_cv [QUOTE] (set_md MBegin s))
               (v := match cv s with Some y => y ++ [QUOTE] | None => [QUOTE] end)) as [p ->]; [reflexivity|reflexivity|].
    exists p. unfold in_end, cat_cv. cbn. f_equal. f_equal. destruct (cv s); cbn; [rewrite <- app_assoc|]; reflexivity.
  - destruct body as [|d body]; cbn in HT; [discriminate|]. injection HT as -> <-.
    inversion Hd as [|? ? _ Hd'|]; subst.
    destruct (@multi_body _ body (Nat.le_refl _) Hd' c T (add_cv [QUOTE; LF] (set_md MMulti s))
               (match cv s with Some y => y ++ [QUOTE; LF] | None => [QUOTE; LF] end)) as [p ->]; try assumption; try reflexivity.
    exists p. unfold in_end, cat_cv. cbn. f_equal. f_equal. destruct (cv s); cbn; [rewrite <- app_assoc|]; reflexivity.
Qed.

(** ** Any unfolded leaf, followed by a separator *)
Definition leaf_state (m : mode) (x : list N) (q : N) (s : bst) : bst :=
  mkst m (text s) (roots s) (stack s) (cat_cv (cv s) x) (Some [q]).
Lemma cont_leaf x c : x <> [] -> plain x \/ quoted x -> sep c -> forall pre T s, md s = MParam ->
  exists pre' m q, cont pre (x ++ c :: T) s = cont pre' (c :: T) (leaf_state m x q s) /\
    (m = MParam \/ m = MEnd) /\ q <> CLOSE.
Proof.
  intros Hne [Hp|(body & -> & Hd & _)] Hc pre T s Hm.
  - exists (pre ++ x), MParam, (last x 0). split; [apply cont_plain; assumption|]. split; [left; reflexivity|].
    unfold plain in Hp. rewrite Forall_forall in Hp.
    assert (Hl : In (last x 0) x). { destruct x; [congruence|]. clear. revert n; induction x; intros; [left; reflexivity|right; apply IHx]. }
    apply Hp in Hl. intros E. rewrite E in Hl. apply Hl. cbn; auto.
  - replace ((QUOTE :: body ++ [QUOTE]) ++ c :: T) with (QUOTE :: body ++ QUOTE :: c :: T).
    2: { cbn. rewrite <- app_assoc. reflexivity. }
    destruct (cont_quoted Hd Hc pre T s Hm) as [p ->].
    exists p, MEnd, QUOTE. split; [reflexivity|]. split; [right; reflexivity|discriminate].
Qed.
