(** Lemmas about JsonText: json.load reads back what json.dump wrote; enough fuel; texts that
    differ only in their non-ASCII characters. *)
From Verif Require Import PyBase PyText Utf Brace Spec_Brace BraceMore Cp1251 JsonText.
Open Scope list_scope.
Open Scope N_scope.

(** ** Strings *)
Lemma small_in c : c < 32 -> In c (map N.of_nat (seq 0 32)).
Proof. intros H. apply in_map_iff. exists (N.to_nat c). split; [lia|]. apply in_seq. lia. Qed.
Lemma jchars_escape c t : jchars (jescape c ++ t) = jcons c (jchars t).
Proof.
  destruct (N.ltb_spec c 32) as [H|H].
  - apply small_in in H. cbn [map seq N.of_nat] in H. repeat (destruct H as [<-|H]; [reflexivity|]). destruct H.
  - unfold jescape. replace (c =? 10) with false by lia. replace (c =? 13) with false by lia. replace (c =? 9) with false by lia.
    replace (c =? 12) with false by lia. replace (c =? 8) with false by lia. replace (c <? 32) with false by lia.
    destruct (c =? QUOTE) eqn:E1; [apply N.eqb_eq in E1; subst; reflexivity|].
    destruct (c =? BSL) eqn:E2; [apply N.eqb_eq in E2; subst; reflexivity|].
    cbn [app jchars]. rewrite E1, E2. replace (c <? 32) with false by lia. reflexivity.
Qed.
Lemma jchars_string s rest : jchars (flat_map jescape s ++ QUOTE :: rest) = Some (s, rest).
Proof.
  induction s as [|c s IH]; [reflexivity|]. cbn [flat_map]. rewrite <- app_assoc, jchars_escape, IH. reflexivity.
Qed.
Lemma jjoin_scalar s : Forall scalar s -> jjoin s = s.
Proof.
  induction 1 as [|a s Ha Hs IH]; [reflexivity|]. cbn [jjoin]. destruct s as [|b t]; [reflexivity|].
  destruct Ha as [_ Ha]. unfold is_surrogate in Ha.
  replace ((55296 <=? a) && (a <? 56320) && (56320 <=? b) && (b <? 57344)) with false by lia. rewrite IH. reflexivity.
Qed.
Lemma jscan_string s rest : Forall scalar s -> jscan (flat_map jescape s ++ QUOTE :: rest) = Some (s, rest).
Proof. intros H. unfold jscan. rewrite jchars_string, jjoin_scalar by exact H. reflexivity. Qed.

(** ** Values *)
Fixpoint jv (v : val) : jval := match v with VNone => Jnull | VStr s => Jstr s | VList l => Jlist (map jv l) end.
Definition jtail (ind : nat) : list val -> list N :=
  fix items (l : list val) : list N :=
    match l with [] => jnl ind ++ [JCLOSE] | y :: r => COMMA :: jnl (S ind) ++ jdump (S ind) y ++ items r end.
Lemma jdump_list ind x l : jdump ind (VList (x :: l)) = JOPEN :: jnl (S ind) ++ jdump (S ind) x ++ jtail ind l.
Proof. reflexivity. Qed.
Lemma jskip_jnl n s : jskip (jnl n ++ s) = jskip s.
Proof. unfold jnl. cbn [app jskip jws]. change (jws LF) with true. cbn iota. induction (2 * n)%nat as [|k IH]; [reflexivity|]. cbn [repeat app jskip]. exact IH. Qed.
Definition jstart (c : N) : Prop := jws c = false /\ c <> JCLOSE /\ c <> COMMA.
Lemma jdump_start ind v : exists c t, jdump ind v = c :: t /\ jstart c.
Proof.
  destruct v as [|s|[|x l]].
  - exists 110, [117; 108; 108]. repeat split; discriminate.
  - exists QUOTE, (flat_map jescape s ++ [QUOTE]). repeat split; discriminate.
  - exists JOPEN, [JCLOSE]. repeat split; discriminate.
  - rewrite jdump_list. eexists JOPEN, _. split; [reflexivity|]. repeat split; discriminate.
Qed.
Lemma jskip_dump ind v s : jskip (jdump ind v ++ s) = jdump ind v ++ s.
Proof. destruct (jdump_start ind v) as (c & t & -> & H & _). cbn [app jskip]. rewrite H. reflexivity. Qed.

Fixpoint need (v : val) : nat :=
  match v with VList l => S (S ((fix go l := match l with [] => O | x :: r => S (Nat.max (need x) (go r)) end) l)) | _ => 1%nat end.
Definition needs : list val -> nat := fix go l := match l with [] => O | x :: r => S (Nat.max (need x) (go r)) end.
Lemma need_list l : need (VList l) = S (S (needs l)).
Proof. reflexivity. Qed.

Definition scal (v : val) : Prop := Forall scalar (concat (leaves v)).
Lemma scal_list x l : scal (VList (x :: l)) -> scal x /\ scal (VList l).
Proof. unfold scal. cbn [leaves flat_map]. rewrite concat_app. intros H. apply Forall_app in H. exact H. Qed.

Lemma jvalue_dump v : forall ind fuel rest, scal v -> (need v <= fuel)%nat -> jvalue fuel (jdump ind v ++ rest) = Some (jv v, rest).
Proof.
  induction v as [|s|l IH] using val_ind2; intros ind fuel rest Hs Hf.
  - destruct fuel as [|k]; [cbn in Hf; lia|]. reflexivity.
  - destruct fuel as [|k]; [cbn in Hf; lia|]. cbn [jdump jstring app jvalue]. change (QUOTE =? QUOTE) with true. cbn iota.
    rewrite <- app_assoc. cbn [app]. rewrite jscan_string; [reflexivity|]. unfold scal in Hs. cbn in Hs. rewrite app_nil_r in Hs. exact Hs.
  - rewrite need_list in Hf. destruct l as [|x l]; [destruct fuel as [|k]; [lia|]; reflexivity|].
    destruct fuel as [|k]; [lia|]. rewrite jdump_list. cbn [app]. rewrite <- !app_assoc. cbn [jvalue].
    change (JOPEN =? QUOTE) with false. change (JOPEN =? JOPEN) with true. cbn iota.
    rewrite jskip_jnl, jskip_dump.
    assert (Hit : forall l x k rest, Forall (fun v => forall ind fuel rest, scal v -> (need v <= fuel)%nat -> jvalue fuel (jdump ind v ++ rest) = Some (jv v, rest)) (x :: l) ->
              scal (VList (x :: l)) -> (needs (x :: l) <= k)%nat -> jitems k (jdump (S ind) x ++ jtail ind l ++ rest) = Some (map jv (x :: l), rest)).
    { clear. induction l as [|y l IHl]; intros x k rest HF Hs Hk.
      - destruct k as [|k]; [cbn in Hk; lia|]. cbn [needs] in Hk. fold needs in Hk. inversion HF as [|? ? Hx _]; subst. cbn [jitems]. rewrite Hx by (first [apply (scal_list _ _ Hs)|lia]).
        cbn [jtail]. rewrite <- app_assoc, jskip_jnl. reflexivity.
      - destruct k as [|k]; [cbn in Hk; lia|]. cbn [needs] in Hk. fold needs in Hk. inversion HF as [|? ? Hx HF']; subst. destruct (scal_list _ _ Hs) as [Hs1 Hs2]. cbn [jitems].
        rewrite Hx by (first [exact Hs1|lia]). change (jtail ind (y :: l)) with (COMMA :: jnl (S ind) ++ jdump (S ind) y ++ jtail ind l). cbn [app jskip]. change (jws COMMA) with false. cbn iota.
        change (COMMA =? JCLOSE) with false. change (COMMA =? COMMA) with true. cbn iota. rewrite <- !app_assoc, jskip_jnl, jskip_dump.
        rewrite IHl; [reflexivity|exact HF'|exact Hs2|]. assert (needs (y :: l) = S (Nat.max (need y) (needs l))) by reflexivity. cbn in Hk |- *. lia. }
    destruct (jdump_start (S ind) x) as (c & t & Ec & Hc1 & Hc2 & Hc3).
    specialize (Hit l x k rest IH Hs). rewrite Ec in *. cbn [app] in *. replace (c =? JCLOSE) with false by (symmetry; apply N.eqb_neq; exact Hc2).
    rewrite Hit by lia. reflexivity.
Qed.

Lemma jnl_len n : (1 <= length (jnl n))%nat.
Proof. cbn. lia. Qed.
Lemma need_length v : forall ind, (need v <= length (jdump ind v))%nat.
Proof.
  induction v as [|s|l IH] using val_ind2; intros ind; [cbn; lia|cbn; rewrite app_length; cbn; lia|]. rewrite need_list.
  destruct l as [|x l]; [cbn; lia|]. rewrite jdump_list. cbn [length]. rewrite !app_length. 
  assert (H : forall l, Forall (fun v => forall ind, (need v <= length (jdump ind v))%nat) l -> (needs l + 1 <= length (jtail ind l))%nat).
  { clear. induction l as [|y l IHl]; intros HF; [cbn; lia|]. inversion HF as [|? ? Hy HF']; subst. cbn [jtail needs]. fold needs. fold (jtail ind). cbn [length]. rewrite !app_length.
    pose proof (jnl_len (S ind)). specialize (IHl HF'). specialize (Hy (S ind)). lia. }
  inversion IH as [|? ? Hx HF]; subst. specialize (H l HF). specialize (Hx (S ind)). pose proof (jnl_len (S ind)). cbn [needs]. fold needs. lia.
Qed.
Theorem jload_jdump v : scal v -> jload (jdump 0 v) = Some (jv v).
Proof.
  intros Hs. unfold jload. destruct (jdump_start 0 v) as (c & t & Ec & Hc & _).
  assert (Hc' : c <> 65279).
  { destruct v as [|s|[|x l]]; cbn in Ec; injection Ec as <- _; discriminate. }
  assert (E : jvalue (S (2 * length (jdump 0 v))) (jskip (jdump 0 v)) = Some (jv v, [])).
  { pose proof (jskip_dump 0 v []) as H. rewrite app_nil_r in H. rewrite H. rewrite <- (app_nil_r (jdump 0 v)) at 2.
    apply jvalue_dump; [exact Hs|]. pose proof (need_length v 0). lia. }
  rewrite E. rewrite Ec. destruct c as [|p]; [reflexivity|]. do 16 (destruct p as [p|p|]; try reflexivity). contradiction.
Qed.

(** ** Fuel *)
Lemma fuel_mono : forall f,
  (forall s x, jvalue f s = Some x -> jvalue (S f) s = Some x) /\
  (forall s x, jitems f s = Some x -> jitems (S f) s = Some x) /\
  (forall s x, jmembers f s = Some x -> jmembers (S f) s = Some x).
Proof.
  induction f as [|f (IHv & IHi & IHm)]; [repeat split; intros; discriminate|].
  split; [|split].
  - intros s x H. remember (S f) as g eqn:Eg. cbn [jvalue]. rewrite Eg in H. cbn [jvalue] in H. revert H. destruct s as [|c t]; [discriminate|].
    destruct (c =? QUOTE); [auto|]. destruct (c =? JOPEN).
    + destruct (jskip t) as [|d r]; [auto|]. destruct (d =? JCLOSE); [auto|]. destruct (jitems f (d :: r)) as [[l r2]|] eqn:E; [|discriminate]. rewrite (IHi _ _ E). auto.
    + destruct (c =? OPEN); [|auto]. destruct (jskip t) as [|d r]; [auto|]. destruct (d =? CLOSE); [auto|].
      destruct (jmembers f (d :: r)) as [[l r2]|] eqn:E; [|discriminate]. rewrite (IHm _ _ E). auto.
  - intros s x H. remember (S f) as g eqn:Eg. cbn [jitems]. rewrite Eg in H. cbn [jitems] in H. revert H. destruct (jvalue f s) as [[v r]|] eqn:E; [|discriminate]. rewrite (IHv _ _ E).
    destruct (jskip r) as [|c r2]; [auto|]. destruct (c =? JCLOSE); [auto|]. destruct (c =? COMMA); [|auto].
    destruct (jitems f (jskip r2)) as [[l r3]|] eqn:E2; [|discriminate]. rewrite (IHi _ _ E2). auto.
  - intros s x H. remember (S f) as g eqn:Eg. cbn [jmembers]. rewrite Eg in H. cbn [jmembers] in H. revert H. destruct s as [|c t]; [discriminate|].
    destruct (c =? QUOTE); [|auto]. destruct (jscan t) as [[key r]|]; [|auto]. destruct (jskip r) as [|c2 r2]; [auto|]. destruct (c2 =? JCOLON); [|auto].
    destruct (jvalue f (jskip r2)) as [[v r3]|] eqn:E; [|discriminate]. rewrite (IHv _ _ E). destruct (jskip r3) as [|c4 r4]; [auto|]. destruct (c4 =? CLOSE); [auto|].
    destruct (c4 =? COMMA); [|auto]. destruct (jmembers f (jskip r4)) as [[l r5]|] eqn:E2; [|discriminate]. rewrite (IHm _ _ E2). auto.
Qed.
Lemma jvalue_mono f g s x : (f <= g)%nat -> jvalue f s = Some x -> jvalue g s = Some x.
Proof. induction 1 as [|g Hg IH]; [auto|]. intros H. apply fuel_mono. auto. Qed.
Lemma jitems_mono f g s x : (f <= g)%nat -> jitems f s = Some x -> jitems g s = Some x.
Proof. induction 1 as [|g Hg IH]; [auto|]. intros H. apply fuel_mono. auto. Qed.
Lemma jmembers_mono f g s x : (f <= g)%nat -> jmembers f s = Some x -> jmembers g s = Some x.
Proof. induction 1 as [|g Hg IH]; [auto|]. intros H. apply fuel_mono. auto. Qed.

Lemma jskip_len s : (length (jskip s) <= length s)%nat.
Proof. induction s as [|c t IH]; [cbn; lia|]. cbn [jskip]. destruct (jws c); cbn [length]; lia. Qed.
Lemma jchars_len : forall n s x r, (length s <= n)%nat -> jchars s = Some (x, r) -> (length r < length s)%nat.
Proof.
  induction n as [|n IH]; intros s x r Hn; [destruct s; [discriminate|cbn in Hn; lia]|]. destruct s as [|c t]; [discriminate|]. cbn [jchars length] in *.
  assert (Hc : forall y t' x' r', (length t' <= length t)%nat -> jcons y (jchars t') = Some (x', r') -> (length r' < S (length t))%nat).
  { intros y t' x' r' Ht H. unfold jcons in H. destruct (jchars t') as [[a b]|] eqn:E; [|discriminate]. injection H as _ <-. apply IH in E; lia. }
  destruct (c =? QUOTE); [intros H; injection H as _ <-; lia|].
  destruct (c =? BSL).
  - destruct t as [|e t2]; [discriminate|]. destruct (unescape e); [apply Hc; cbn; lia|]. destruct (e =? 117); [|discriminate].
    destruct t2 as [|h1 [|h2 [|h3 [|h4 t6]]]]; try discriminate. destruct (hex4 h1 h2 h3 h4); [|discriminate]. apply Hc. cbn. lia.
  - destruct (c <? 32); [discriminate|]. apply Hc. lia.
Qed.
Lemma jscan_len s x r : jscan s = Some (x, r) -> (length r < length s)%nat.
Proof. unfold jscan. destruct (jchars s) as [[a b]|] eqn:E; [|discriminate]. intros H. injection H as _ <-. exact (jchars_len (length s) s a b (le_n _) E). Qed.
Lemma digits_len s : (length (snd (digits s)) <= length s)%nat.
Proof. induction s as [|c t IH]; [cbn; lia|]. cbn [digits]. destruct (digit c); [|cbn; lia]. destruct (digits t). cbn in *. lia. Qed.
Lemma jfrac_len s : (length (snd (jfrac s)) <= length s)%nat.
Proof. destruct s as [|c t]; [cbn; lia|]. cbn [jfrac]. destruct (c =? 46); [|cbn; lia]. pose proof (digits_len t). destruct (digits t) as [[|a l] b]; cbn in *; lia. Qed.
Lemma jexp_len s : (length (snd (jexp s)) <= length s)%nat.
Proof.
  destruct s as [|c t]; [cbn; lia|]. cbn [jexp]. destruct ((c =? 101) || (c =? 69)); [|cbn; lia].
  destruct t as [|d t2]; [cbn; lia|]. destruct ((d =? 43) || (d =? 45)).
  - pose proof (digits_len t2). destruct (digits t2) as [[|a l] b]; cbn in *; lia.
  - pose proof (digits_len (d :: t2)). destruct (digits (d :: t2)) as [[|a l] b]; cbn in *; lia.
Qed.
Lemma jint_len s i r : jint s = Some (i, r) -> (length r < length s)%nat.
Proof.
  destruct s as [|c t]; [discriminate|]. cbn [jint]. destruct (c =? 48); [intros H; injection H as _ <-; cbn; lia|]. destruct (digit c) eqn:E; [|discriminate].
  cbn [digits]. rewrite E. pose proof (digits_len t). destruct (digits t) as [a b]. intros H0. injection H0 as _ <-. cbn in *. lia.
Qed.
Lemma jnumber_len s v r : jnumber s = Some (v, r) -> (length r < length s)%nat.
Proof.
  unfold jnumber. set (p := match s with c :: t => if c =? 45 then ([c], t) else ([], s) | [] => ([], []) end).
  assert (Hp : (length (snd p) <= length s)%nat) by (unfold p; destruct s as [|c t]; [cbn; lia|]; destruct (c =? 45); cbn; lia).
  destruct p as [sg s1]. cbn in Hp. destruct (jint s1) as [[i s2]|] eqn:E; [|discriminate]. apply jint_len in E. pose proof (jfrac_len s2). destruct (jfrac s2) as [f s3]. pose proof (jexp_len s3). destruct (jexp s3) as [e s4].
  intros H1. injection H1 as _ <-. cbn in *. lia.
Qed.
Lemma starts_skip w s : starts w s = true -> (length (skipn (length w) s) = length s - length w)%nat /\ (length w <= length s)%nat.
Proof. intros H. rewrite skipn_length. split; [reflexivity|]. revert s H. induction w as [|a w IH]; intros s H; [cbn; lia|]. destruct s as [|b s]; [discriminate|]. cbn in H. apply andb_true_iff in H. destruct H as [_ H]. apply IH in H. cbn. lia. Qed.
Lemma jword_len s v r : jword s = Some (v, r) -> (length r < length s)%nat.
Proof.
  unfold jword.
  destruct (starts jnull s) eqn:E1; [intros H; assert (r = skipn 4 s) as -> by congruence; destruct (starts_skip _ _ E1) as [A B]; cbn [length jnull w_inf] in B; rewrite skipn_length; lia|].
  destruct (starts w_true s) eqn:E2; [intros H; assert (r = skipn 4 s) as -> by congruence; destruct (starts_skip _ _ E2) as [A B]; cbn [length w_true w_inf] in B; rewrite skipn_length; lia|].
  destruct (starts w_false s) eqn:E3; [intros H; assert (r = skipn 5 s) as -> by congruence; destruct (starts_skip _ _ E3) as [A B]; cbn [length w_false w_inf] in B; rewrite skipn_length; lia|].
  destruct (starts w_nan s) eqn:E4; [intros H; assert (r = skipn 3 s) as -> by congruence; destruct (starts_skip _ _ E4) as [A B]; cbn [length w_nan w_inf] in B; rewrite skipn_length; lia|].
  destruct (starts w_inf s) eqn:E5; [intros H; assert (r = skipn 8 s) as -> by congruence; destruct (starts_skip _ _ E5) as [A B]; cbn [length w_inf w_inf] in B; rewrite skipn_length; lia|].
  destruct (starts w_ninf s) eqn:E6; [intros H; assert (r = skipn 9 s) as -> by congruence; destruct (starts_skip _ _ E6) as [A B]; cbn [length w_ninf w_inf] in B; rewrite skipn_length; lia|].
  apply jnumber_len.
Qed.
Lemma fuel_enough : forall f,
  (forall s v r, jvalue f s = Some (v, r) -> (length r < length s)%nat /\ jvalue (2 * length s) s = Some (v, r)) /\
  (forall s l r, jitems f s = Some (l, r) -> (length r < length s)%nat /\ jitems (S (2 * length s)) s = Some (l, r)) /\
  (forall s l r, jmembers f s = Some (l, r) -> (length r < length s)%nat /\ jmembers (S (2 * length s)) s = Some (l, r)).
Proof.
  induction f as [|f (IHv & IHi & IHm)]; [repeat split; intros; discriminate|].
  split; [|split].
  - intros s v r. cbn [jvalue]. destruct s as [|c t]; [discriminate|]. replace (2 * length (c :: t))%nat with (S (S (2 * length t))) by (cbn; lia). remember (S (2 * length t)) as g. cbn [jvalue]. subst g.
    destruct (c =? QUOTE). { destruct (jscan t) as [[x r0]|] eqn:E; [|discriminate]. intros H; injection H as <- <-. apply jscan_len in E. split; [cbn; lia|reflexivity]. }
    pose proof (jskip_len t) as Hs. destruct (c =? JOPEN).
    + destruct (jskip t) as [|d r0]; [discriminate|]. destruct (d =? JCLOSE); [intros H; injection H as <- <-; split; [cbn in *; lia|reflexivity]|].
      destruct (jitems f (d :: r0)) as [[l r2]|] eqn:E; [|discriminate]. intros H; injection H as <- <-. destruct (IHi _ _ _ E) as [H1 H2]. split; [cbn in *; lia|].
      apply jitems_mono with (g := (S (2 * length t))%nat) in H2; [|cbn [length] in *; lia]. rewrite H2. reflexivity.
    + destruct (c =? OPEN).
      * destruct (jskip t) as [|d r0]; [discriminate|]. destruct (d =? CLOSE); [intros H; injection H as <- <-; split; [cbn in *; lia|reflexivity]|].
        destruct (jmembers f (d :: r0)) as [[l r2]|] eqn:E; [|discriminate]. intros H; injection H as <- <-. destruct (IHm _ _ _ E) as [H1 H2]. split; [cbn in *; lia|].
        apply jmembers_mono with (g := (S (2 * length t))%nat) in H2; [|cbn [length] in *; lia]. rewrite H2. reflexivity.
      * intros H. split; [apply jword_len in H; exact H|exact H].
  - intros s l r. cbn [jitems]. destruct (jvalue f s) as [[v r0]|] eqn:E; [|discriminate]. destruct (IHv _ _ _ E) as [H1 H2]. rewrite H2. pose proof (jskip_len r0) as Hs.
    destruct (jskip r0) as [|c r2]; [discriminate|]. cbn in Hs. destruct (c =? JCLOSE); [intros H; injection H as <- <-; split; [lia|reflexivity]|]. destruct (c =? COMMA); [|discriminate].
    destruct (jitems f (jskip r2)) as [[l' r3]|] eqn:E2; [|discriminate]. intros H; injection H as <- <-. destruct (IHi _ _ _ E2) as [H3 H4]. pose proof (jskip_len r2). split; [lia|].
    apply jitems_mono with (g := (2 * length s)%nat) in H4; [|cbn [length] in *; lia]. rewrite H4. reflexivity.
  - intros s l r. cbn [jmembers]. destruct s as [|c t]; [discriminate|]. destruct (c =? QUOTE); [|discriminate]. destruct (jscan t) as [[key r0]|] eqn:E0; [|discriminate]. apply jscan_len in E0.
    pose proof (jskip_len r0) as Hs. destruct (jskip r0) as [|c2 r2]; [discriminate|]. cbn in Hs. destruct (c2 =? JCOLON); [|discriminate]. pose proof (jskip_len r2) as Hs2.
    destruct (jvalue f (jskip r2)) as [[v r3]|] eqn:E; [|discriminate]. destruct (IHv _ _ _ E) as [H1 H2]. apply jvalue_mono with (g := (2 * length (c :: t))%nat) in H2; [|cbn [length] in *; lia]. rewrite H2.
    pose proof (jskip_len r3) as Hs3. destruct (jskip r3) as [|c4 r4]; [discriminate|]. cbn in Hs3. destruct (c4 =? CLOSE); [intros H; injection H as <- <-; split; [cbn; lia|reflexivity]|].
    destruct (c4 =? COMMA); [|discriminate]. destruct (jmembers f (jskip r4)) as [[l' r5]|] eqn:E2; [|discriminate]. intros H; injection H as <- <-. destruct (IHm _ _ _ E2) as [H3 H4]. pose proof (jskip_len r4).
    split; [cbn; lia|]. apply jmembers_mono with (g := (2 * length (c :: t))%nat) in H4; [|cbn [length] in *; lia]. rewrite H4. reflexivity.
Qed.
(** the fuel of [jload] never decides *)
Theorem jload_fuel s : forall f v r, (match s with 65279 :: _ => False | _ => True end) -> jvalue f (jskip s) = Some (v, r) -> jskip r = [] -> jload s = Some v.
Proof.
  intros f v r Hb H Hr. destruct (proj1 (fuel_enough f) _ _ _ H) as [_ H2].
  assert (E : jvalue (S (2 * length s)) (jskip s) = Some (v, r)) by (eapply jvalue_mono; [|exact H2]; pose proof (jskip_len s); lia).
  unfold jload. destruct s as [|c t]; [rewrite E, Hr; reflexivity|]. rewrite E, Hr. destruct c as [|p]; [reflexivity|]. do 16 (destruct p as [p|p|]; try reflexivity). contradiction.
Qed.
