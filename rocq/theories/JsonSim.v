(** Whether a text is JSON depends only on its ASCII characters: reading a UTF-8 JSON file as
    windows-1251 gives a JSON text again (or fails). *)
From Verif Require Import PyBase PyText Utf Brace Cp1251 JsonText JsonTextProofs.
Open Scope list_scope.
Open Scope N_scope.

Definition high (c : N) : Prop := 128 <= c.
(** the same ASCII characters; every other character replaced by one or more others *)
Inductive hi_eq : list N -> list N -> Prop :=
| he_nil : hi_eq [] []
| he_ascii c s t : c < 128 -> hi_eq s t -> hi_eq (c :: s) (c :: t)
| he_high c d ds s t : high c -> high d -> Forall high ds -> hi_eq s t -> hi_eq (c :: s) (d :: ds ++ t).

Lemma decode_hi : forall n bs t t', (length bs <= n)%nat -> utf8_decode bs = Ok t -> cp1251_decode bs = Ok t' -> hi_eq t t'.
Proof.
  induction n as [|n IH]; intros bs t t' Hn; [destruct bs; [intros H1 H2; injection H1 as <-; injection H2 as <-; constructor|cbn in Hn; lia]|].
  destruct bs as [|a bs]; [intros H1 H2; injection H1 as <-; injection H2 as <-; constructor|]. cbn [length] in Hn. cbn [utf8_decode cp1251_decode].
  destruct (a <? 128) eqn:Ea.
  { rewrite cp1251_low by lia. destruct (utf8_decode bs) as [r|] eqn:E; [|discriminate]. destruct (cp1251_decode bs) as [r'|] eqn:E'; [|discriminate]. cbn [bind].
    intros H1 H2. injection H1 as <-. injection H2 as <-. constructor; [lia|]. eapply IH; [|exact E|exact E']. lia. }
  destruct (cp1251_char a) as [a'|] eqn:Ha; [|discriminate]. assert (Ha' : high a') by (eapply cp1251_high_ge; [|exact Ha]; lia).
  destruct ((194 <=? a) && (a <? 224)) eqn:E2.
  { destruct bs as [|b bs]; [discriminate|]. cbn [cp1251_decode]. destruct (cont b) eqn:Eb; [|discriminate]. unfold cont in Eb.
    destruct (cp1251_char b) as [b'|] eqn:Hb; [|discriminate]. assert (Hb' : high b') by (eapply cp1251_high_ge; [|exact Hb]; lia).
    destruct (utf8_decode bs) as [r|] eqn:E; [|discriminate]. destruct (cp1251_decode bs) as [r'|] eqn:E'; [|discriminate]. cbn [bind].
    intros H1 H2. injection H1 as <-. injection H2 as <-. apply (he_high _ a' [b'] r r'); [unfold high; lia|exact Ha'|repeat constructor; exact Hb'|]. eapply IH; [|exact E|exact E']. cbn in Hn. lia. }
  destruct ((224 <=? a) && (a <? 240)) eqn:E3.
  { destruct bs as [|b [|c bs]]; try discriminate. cbn [cp1251_decode].
    match goal with |- context [if ?x then _ else _] => destruct x eqn:Ev; [|discriminate] end. unfold cont in Ev.
    destruct (cp1251_char b) as [b'|] eqn:Hb; [|discriminate]. assert (Hb' : high b') by (eapply cp1251_high_ge; [|exact Hb]; lia).
    destruct (cp1251_char c) as [c'|] eqn:Hc; [|discriminate]. assert (Hc' : high c') by (eapply cp1251_high_ge; [|exact Hc]; lia).
    destruct (utf8_decode bs) as [r|] eqn:E; [|discriminate]. destruct (cp1251_decode bs) as [r'|] eqn:E'; [|discriminate]. cbn [bind].
    intros H1 H2. injection H1 as <-. injection H2 as <-. apply (he_high _ a' [b'; c'] r r'); [unfold high; lia|exact Ha'|repeat constructor; assumption|]. eapply IH; [|exact E|exact E']. cbn in Hn. lia. }
  destruct ((240 <=? a) && (a <? 245)) eqn:E4; [|discriminate].
  destruct bs as [|b [|c [|d bs]]]; try discriminate. cbn [cp1251_decode].
  match goal with |- context [if ?x then _ else _] => destruct x eqn:Ev; [|discriminate] end. unfold cont in Ev.
  destruct (cp1251_char b) as [b'|] eqn:Hb; [|discriminate]. assert (Hb' : high b') by (eapply cp1251_high_ge; [|exact Hb]; lia).
  destruct (cp1251_char c) as [c'|] eqn:Hc; [|discriminate]. assert (Hc' : high c') by (eapply cp1251_high_ge; [|exact Hc]; lia).
  destruct (cp1251_char d) as [d'|] eqn:Hd; [|discriminate]. assert (Hd' : high d') by (eapply cp1251_high_ge; [|exact Hd]; lia).
  destruct (utf8_decode bs) as [r|] eqn:E; [|discriminate]. destruct (cp1251_decode bs) as [r'|] eqn:E'; [|discriminate]. cbn [bind].
  intros H1 H2. injection H1 as <-. injection H2 as <-. apply (he_high _ a' [b'; c'; d'] r r'); [unfold high; lia|exact Ha'|repeat constructor; assumption|]. eapply IH; [|exact E|exact E']. cbn in Hn. lia.
Qed.

Lemma univ_nl_high ds t : Forall high ds -> univ_nl (ds ++ t) = ds ++ univ_nl t.
Proof.
  induction 1 as [|d ds Hd Hds IH]; [reflexivity|]. cbn [app univ_nl]. unfold high, CR in *. replace (d =? 13) with false by lia. rewrite IH. reflexivity.
Qed.
Lemma univ_nl_hi : forall n s t, (length s <= n)%nat -> hi_eq s t -> hi_eq (univ_nl s) (univ_nl t).
Proof.
  induction n as [|n IH]; intros s t Hn H; [destruct s; [inversion H; subst; constructor|cbn in Hn; lia]|].
  inversion H as [|c s' t' Hc H'|c d ds s' t' Hc Hd Hds H']; subst; [constructor| |].
  - cbn [univ_nl]. cbn [length] in Hn. destruct (c =? CR) eqn:E; [|constructor; [exact Hc|apply IH; [lia|exact H']]].
    inversion H' as [|x s2 t2 Hx H2|x d ds s2 t2 Hx Hd Hds H2]; subst.
    + constructor; [reflexivity|constructor].
    + destruct (x =? LF) eqn:Ex; (constructor; [reflexivity|]).
      * apply IH; [cbn in Hn; lia|exact H2].
      * apply (IH (x :: s2) (x :: t2)); [cbn in *; lia|exact H'].
    + unfold high, LF in *. replace (x =? 10) with false by lia. replace (d =? 10) with false by lia. constructor; [reflexivity|]. apply (IH (x :: s2) (d :: ds ++ t2)); [cbn in *; lia|exact H'].
  - change (d :: ds ++ t') with ((d :: ds) ++ t'). rewrite univ_nl_high by (constructor; assumption). cbn [univ_nl]. unfold high, CR in *. replace (c =? 13) with false by lia.
    apply (he_high c d ds); [exact Hc|exact Hd|exact Hds|]. apply IH; [cbn in Hn; lia|exact H'].
Qed.

Lemma jws_high c : high c -> jws c = false.
Proof. unfold high, jws. intros H. lia. Qed.
Lemma jskip_hi s t : hi_eq s t -> hi_eq (jskip s) (jskip t).
Proof.
  induction 1 as [|c s t Hc H IH|c d ds s t Hc Hd Hds H IH]; [constructor| |].
  - cbn [jskip]. destruct (jws c); [exact IH|constructor; assumption].
  - cbn [jskip]. rewrite !jws_high by assumption. apply he_high; assumption.
Qed.
Lemma hi_length s t : hi_eq s t -> (length s <= length t)%nat.
Proof. induction 1; cbn; rewrite ?app_length; lia. Qed.

Lemma jchars_high ds t x r : Forall high ds -> jchars t = Some (x, r) -> jchars (ds ++ t) = Some (ds ++ x, r).
Proof.
  induction 1 as [|d ds Hd Hds IH]; [auto|]. intros H. cbn [app jchars]. unfold high, QUOTE, BSL in *.
  replace (d =? 34) with false by lia. replace (d =? 92) with false by lia. replace (d <? 32) with false by lia. rewrite IH by exact H. reflexivity.
Qed.
Lemma unescape_high c : high c -> unescape c = None.
Proof.
  unfold high, unescape, QUOTE, BSL. intros H. replace (c =? 34) with false by lia. replace (c =? 92) with false by lia. replace (c =? 47) with false by lia.
  replace (c =? 98) with false by lia. replace (c =? 102) with false by lia. replace (c =? 110) with false by lia. replace (c =? 114) with false by lia. replace (c =? 116) with false by lia. reflexivity.
Qed.
Lemma hexval_low c v : hexval c = Some v -> c < 128.
Proof.
  unfold hexval. destruct ((48 <=? c) && (c <=? 57)) eqn:E1; [intros _; lia|]. destruct ((97 <=? c) && (c <=? 102)) eqn:E2; [intros _; lia|]. destruct ((65 <=? c) && (c <=? 70)) eqn:E3; [intros _; lia|discriminate].
Qed.
Lemma hi_low c s t : c < 128 -> hi_eq (c :: s) t -> exists t', t = c :: t' /\ hi_eq s t'.
Proof. intros Hc H. inversion H as [|? ? t' ? H'|? ? ? ? ? Hh]; subst; [eauto|unfold high in Hh; lia]. Qed.
Definition hi_some (x y : option (list N * list N)) : Prop := forall a r, x = Some (a, r) -> exists b r', y = Some (b, r') /\ hi_eq r r'.
Lemma hi_jcons c d x y : hi_some x y -> hi_some (jcons c x) (jcons d y).
Proof. intros H a r E. unfold jcons in *. destruct x as [[x1 x2]|]; [|discriminate]. injection E as <- <-. destruct (H _ _ eq_refl) as (b & r' & -> & Hr). eauto. Qed.
Lemma jchars_hi : forall n s t, (length s <= n)%nat -> hi_eq s t -> hi_some (jchars s) (jchars t).
Proof.
  induction n as [|n IH]; intros s t Hn H; [destruct s; [intros a r E; discriminate|cbn in Hn; lia]|].
  inversion H as [|c s' t' Hc H'|c d ds s' t' Hc Hd Hds H']; subst; [intros a r E; discriminate| |].
  - cbn [jchars]. cbn [length] in Hn. destruct (c =? QUOTE); [intros a r E; injection E as <- <-; eauto|]. destruct (c =? BSL).
    + destruct s' as [|e s2]; [intros a r E; discriminate|]. destruct (unescape e) as [x|] eqn:Ee.
      * assert (He : e < 128). { destruct (N.ltb_spec e 128) as [|He]; [assumption|]. rewrite unescape_high in Ee by exact He. discriminate. }
        destruct (hi_low _ _ _ He H') as (t2 & -> & H2). rewrite Ee. apply hi_jcons. apply IH; [cbn in Hn; lia|exact H2].
      * destruct (e =? 117) eqn:Eu; [|intros a r E; discriminate]. apply N.eqb_eq in Eu. subst e.
        destruct (hi_low 117 _ _ ltac:(lia) H') as (t2 & -> & H2). rewrite Ee. change (117 =? 117) with true. cbn iota.
        destruct s2 as [|h1 [|h2 [|h3 [|h4 s6]]]]; try (intros a r E; discriminate). destruct (hex4 h1 h2 h3 h4) as [v|] eqn:Eh; [|intros a r E; discriminate].
        assert (Hlow : h1 < 128 /\ h2 < 128 /\ h3 < 128 /\ h4 < 128).
        { unfold hex4 in Eh. destruct (hexval h1) eqn:E1; [|discriminate]. destruct (hexval h2) eqn:E2; [|discriminate]. destruct (hexval h3) eqn:E3; [|discriminate]. destruct (hexval h4) eqn:E4; [|discriminate].
          apply hexval_low in E1, E2, E3, E4. auto. }
        destruct Hlow as (L1 & L2 & L3 & L4). destruct (hi_low _ _ _ L1 H2) as (u1 & -> & U1). destruct (hi_low _ _ _ L2 U1) as (u2 & -> & U2). destruct (hi_low _ _ _ L3 U2) as (u3 & -> & U3). destruct (hi_low _ _ _ L4 U3) as (u4 & -> & U4).
        rewrite Eh. apply hi_jcons. apply IH; [cbn in Hn; lia|exact U4].
    + destruct (c <? 32); [intros a r E; discriminate|]. apply hi_jcons. apply IH; [lia|exact H'].
  - cbn [length] in Hn. intros a r E. cbn [jchars] in E. unfold high, QUOTE, BSL in Hc. replace (c =? 34) with false in E by lia. replace (c =? 92) with false in E by lia. replace (c <? 32) with false in E by lia.
    change (c =? QUOTE) with (c =? 34) in E. replace (c =? 34) with false in E by lia. change (c =? BSL) with (c =? 92) in E. replace (c =? 92) with false in E by lia. unfold jcons in E. destruct (jchars s') as [[x y]|] eqn:Ex; [|discriminate]. injection E as <- <-.
    destruct (IH s' t' ltac:(lia) H' _ _ Ex) as (b & r' & Eb & Hr). exists (d :: ds ++ b), r'. split; [|exact Hr]. apply (jchars_high (d :: ds) t' b r'); [constructor; assumption|exact Eb].
Qed.
Lemma jscan_hi s t : hi_eq s t -> hi_some (jscan s) (jscan t).
Proof.
  intros H a r E. unfold jscan in *. destruct (jchars s) as [[x y]|] eqn:Ex; [|discriminate]. injection E as <- <-. destruct (jchars_hi (length s) s t (le_n _) H _ _ Ex) as (b & r' & -> & Hr). eauto.
Qed.

(** numbers and words *)
Lemma digit_low c : digit c = true -> c < 128.
Proof. unfold digit. lia. Qed.
Lemma digit_high c : high c -> digit c = false.
Proof. unfold digit, high. lia. Qed.
Lemma digits_hi s t : hi_eq s t -> fst (digits s) = fst (digits t) /\ hi_eq (snd (digits s)) (snd (digits t)).
Proof.
  induction 1 as [|c s t Hc H [IH1 IH2]|c d ds s t Hc Hd Hds H IH]; [split; constructor| |].
  - cbn [digits]. destruct (digit c); [|split; [reflexivity|constructor; assumption]]. destruct (digits s), (digits t). cbn in *. split; [congruence|exact IH2].
  - cbn [digits]. rewrite !digit_high by assumption. split; [reflexivity|apply he_high; assumption].
Qed.
Lemma jfrac_hi s t : hi_eq s t -> hi_eq (snd (jfrac s)) (snd (jfrac t)).
Proof.
  intros H. inversion H as [|c s' t' Hc H'|c d ds s' t' Hc Hd Hds H']; subst; [constructor| |].
  - cbn [jfrac]. destruct (c =? 46); [|exact H]. destruct (digits_hi _ _ H') as [E1 E2]. destruct (digits s') as [a b], (digits t') as [a' b']. cbn in E1, E2. subst a'. destruct a; [exact H|exact E2].
  - cbn [jfrac]. unfold high in *. replace (c =? 46) with false by lia. replace (d =? 46) with false by lia. exact H.
Qed.
Lemma jexp_hi s t : hi_eq s t -> hi_eq (snd (jexp s)) (snd (jexp t)).
Proof.
  intros H. inversion H as [|c s' t' Hc H'|c d ds s' t' Hc Hd Hds H']; subst; [constructor| |].
  - cbn [jexp]. destruct ((c =? 101) || (c =? 69)); [|exact H].
    assert (Hd : forall sg s1 t1, hi_eq s1 t1 -> hi_eq (snd (match digits s1 with ([], _) => ([], c :: s') | (a, b) => (c :: sg ++ a, b) end)) (snd (match digits t1 with ([], _) => ([], c :: t') | (a, b) => (c :: sg ++ a, b) end))).
    { intros sg s1 t1 H1. destruct (digits_hi _ _ H1) as [E1 E2]. destruct (digits s1) as [a b], (digits t1) as [a' b']. cbn in E1, E2. subst a'. destruct a; [exact H|exact E2]. }
    inversion H' as [|x s2 t2 Hx H2|x d ds s2 t2 Hx Hd' Hds H2]; subst.
    + apply (Hd [] [] []). constructor.
    + destruct ((x =? 43) || (x =? 45)); [apply (Hd [x] s2 t2 H2)|apply (Hd [] (x :: s2) (x :: t2) H')].
    + unfold high in Hx, Hd'. replace ((x =? 43) || (x =? 45)) with false by lia. replace ((d =? 43) || (d =? 45)) with false by lia. apply (Hd [] (x :: s2) (d :: ds ++ t2) H').
  - cbn [jexp]. unfold high in *. replace ((c =? 101) || (c =? 69)) with false by lia. replace ((d =? 101) || (d =? 69)) with false by lia. exact H.
Qed.
Lemma jint_hi s t : hi_eq s t -> hi_some (jint s) (jint t).
Proof.
  intros H a r. inversion H as [|c s' t' Hc H'|c d ds s' t' Hc Hd Hds H']; subst; [discriminate| |].
  - unfold jint. destruct (c =? 48); [intros E; injection E as <- <-; eauto|]. destruct (digit c); [|discriminate]. destruct (digits_hi _ _ H) as [E1 E2]. destruct (digits (c :: s')) as [x y], (digits (c :: t')) as [x' y']. cbn in E1, E2.
    intros E; injection E as <- <-. eauto.
  - unfold jint. rewrite (digit_high c) by exact Hc. unfold high in *. replace (c =? 48) with false by lia. discriminate.
Qed.
Definition hi_jv (x y : option (jval * list N)) : Prop := forall a r, x = Some (a, r) -> exists b r', y = Some (b, r') /\ hi_eq r r'.
Lemma jnumber_hi s t : hi_eq s t -> hi_jv (jnumber s) (jnumber t).
Proof.
  intros H a r. unfold jnumber.
  assert (Hrest : forall sg s1 t1, hi_eq s1 t1 ->
    match jint s1 with None => None | Some (i, s2) => let (f, s3) := jfrac s2 in let (e, s4) := jexp s3 in Some (Jnum (sg ++ i ++ f ++ e), s4) end = Some (a, r) ->
    exists b r', match jint t1 with None => None | Some (i, s2) => let (f, s3) := jfrac s2 in let (e, s4) := jexp s3 in Some (Jnum (sg ++ i ++ f ++ e), s4) end = Some (b, r') /\ hi_eq r r').
  { intros sg s1 t1 H1 E. destruct (jint s1) as [[i s2]|] eqn:Ei; [|discriminate]. destruct (jint_hi _ _ H1 _ _ Ei) as (i' & t2 & -> & H2).
    pose proof (jfrac_hi _ _ H2) as H3. destruct (jfrac s2) as [f s3], (jfrac t2) as [f' t3]. cbn in H3. pose proof (jexp_hi _ _ H3) as H4. destruct (jexp s3) as [e s4], (jexp t3) as [e' t4]. cbn in H4.
    injection E as <- <-. eauto. }
  inversion H as [|c s' t' Hc H'|c d ds s' t' Hc Hd Hds H']; subst.
  - apply (Hrest [] [] []). constructor.
  - destruct (c =? 45); [apply (Hrest [c] s' t' H')|apply (Hrest [] (c :: s') (c :: t') H)].
  - unfold high in Hc, Hd. replace (c =? 45) with false by lia. replace (d =? 45) with false by lia. apply (Hrest [] (c :: s') (d :: ds ++ t') H).
Qed.
Lemma starts_hi w s t : Forall (fun c => c < 128) w -> hi_eq s t -> starts w s = starts w t /\ (starts w s = true -> hi_eq (skipn (length w) s) (skipn (length w) t)).
Proof.
  intros Hw. revert s t. induction Hw as [|a w Ha Hw IH]; intros s t H; [split; [destruct s, t; reflexivity|intros _; exact H]|].
  inversion H as [|c s' t' Hc H'|c d ds s' t' Hc Hd Hds H']; subst; [split; [reflexivity|discriminate]| |].
  - cbn [starts length skipn]. destruct (IH _ _ H') as [E1 E2]. rewrite E1 in *. split; [reflexivity|]. intros E. apply andb_true_iff in E. apply E2. apply E.
  - cbn [starts]. unfold high in *. replace (a =? c) with false by lia. replace (a =? d) with false by lia. split; [reflexivity|discriminate].
Qed.
Lemma jword_hi s t : hi_eq s t -> hi_jv (jword s) (jword t).
Proof.
  intros H a r. unfold jword.
  assert (Hw : forall w, forallb (fun c => c <? 128) w = true -> Forall (fun c => c < 128) w) by (intros w; rewrite forallb_forall, Forall_forall; intros Hw x Hx; specialize (Hw x Hx); lia).
  destruct (starts_hi jnull _ _ (Hw jnull eq_refl) H) as [<- F1]. destruct (starts jnull s).
  { intros E. exists Jnull, (skipn 4 t). split; [reflexivity|]. assert (r = skipn 4 s) as -> by congruence. apply (F1 eq_refl). }
  destruct (starts_hi w_true _ _ (Hw w_true eq_refl) H) as [<- F2]. destruct (starts w_true s).
  { intros E. eexists _, (skipn 4 t). split; [reflexivity|]. assert (r = skipn 4 s) as -> by congruence. apply (F2 eq_refl). }
  destruct (starts_hi w_false _ _ (Hw w_false eq_refl) H) as [<- F3]. destruct (starts w_false s).
  { intros E. eexists _, (skipn 5 t). split; [reflexivity|]. assert (r = skipn 5 s) as -> by congruence. apply (F3 eq_refl). }
  destruct (starts_hi w_nan _ _ (Hw w_nan eq_refl) H) as [<- F4]. destruct (starts w_nan s).
  { intros E. eexists _, (skipn 3 t). split; [reflexivity|]. assert (r = skipn 3 s) as -> by congruence. apply (F4 eq_refl). }
  destruct (starts_hi w_inf _ _ (Hw w_inf eq_refl) H) as [<- F5]. destruct (starts w_inf s).
  { intros E. eexists _, (skipn 8 t). split; [reflexivity|]. assert (r = skipn 8 s) as -> by congruence. apply (F5 eq_refl). }
  destruct (starts_hi w_ninf _ _ (Hw w_ninf eq_refl) H) as [<- F6]. destruct (starts w_ninf s).
  { intros E. eexists _, (skipn 9 t). split; [reflexivity|]. assert (r = skipn 9 s) as -> by congruence. apply (F6 eq_refl). }
  apply jnumber_hi. exact H.
Qed.

Lemma parse_hi : forall f,
  (forall s t v r, hi_eq s t -> jvalue f s = Some (v, r) -> exists v' r', jvalue f t = Some (v', r') /\ hi_eq r r') /\
  (forall s t v r, hi_eq s t -> jitems f s = Some (v, r) -> exists v' r', jitems f t = Some (v', r') /\ hi_eq r r') /\
  (forall s t v r, hi_eq s t -> jmembers f s = Some (v, r) -> exists v' r', jmembers f t = Some (v', r') /\ hi_eq r r').
Proof.
  induction f as [|f (IHv & IHi & IHm)]; [repeat split; intros; discriminate|].
  split; [|split].
  - intros s t v r H. inversion H as [|c s' t' Hc H'|c d ds s' t' Hc Hd Hds H']; subst; [discriminate| |].
    + cbn [jvalue]. destruct (c =? QUOTE).
      { destruct (jscan s') as [[x y]|] eqn:E; [|discriminate]. intros E2; injection E2 as <- <-. destruct (jscan_hi _ _ H' _ _ E) as (b & r' & -> & Hr). eauto. }
      pose proof (jskip_hi _ _ H') as Hs. destruct (c =? JOPEN).
      * inversion Hs as [Ea Eb|x s2 t2 Hx H2 Ea Eb|x d ds s2 t2 Hx Hd Hds H2 Ea Eb]; [discriminate| |].
        -- destruct (x =? JCLOSE); [intros E; injection E as <- <-; eauto|]. destruct (jitems f (x :: s2)) as [[l r2]|] eqn:E; [|discriminate]. intros E2; injection E2 as <- <-.
           destruct (IHi _ (x :: t2) _ _ (he_ascii _ _ _ Hx H2) E) as (l' & r' & -> & Hr). eauto.
        -- unfold high, JCLOSE in Hx, Hd. unfold JCLOSE. replace (x =? 93) with false by lia. replace (d =? 93) with false by lia. destruct (jitems f (x :: s2)) as [[l r2]|] eqn:E; [|discriminate]. intros E2; injection E2 as <- <-.
           destruct (IHi _ (d :: ds ++ t2) _ _ (he_high _ _ _ _ _ Hx Hd Hds H2) E) as (l' & r' & -> & Hr). eauto.
      * destruct (c =? OPEN); [|apply (jword_hi _ _ H)].
        inversion Hs as [Ea Eb|x s2 t2 Hx H2 Ea Eb|x d ds s2 t2 Hx Hd Hds H2 Ea Eb]; [discriminate| |].
        -- destruct (x =? CLOSE); [intros E; injection E as <- <-; eauto|]. destruct (jmembers f (x :: s2)) as [[l r2]|] eqn:E; [|discriminate]. intros E2; injection E2 as <- <-.
           destruct (IHm _ (x :: t2) _ _ (he_ascii _ _ _ Hx H2) E) as (l' & r' & -> & Hr). eauto.
        -- unfold high, CLOSE in Hx, Hd. unfold CLOSE. replace (x =? 125) with false by lia. replace (d =? 125) with false by lia. destruct (jmembers f (x :: s2)) as [[l r2]|] eqn:E; [|discriminate]. intros E2; injection E2 as <- <-.
           destruct (IHm _ (d :: ds ++ t2) _ _ (he_high _ _ _ _ _ Hx Hd Hds H2) E) as (l' & r' & -> & Hr). eauto.
    + cbn [jvalue]. unfold high, QUOTE, JOPEN, OPEN in *. replace (c =? 34) with false by lia. replace (c =? 91) with false by lia. replace (c =? 123) with false by lia.
      replace (d =? 34) with false by lia. replace (d =? 91) with false by lia. replace (d =? 123) with false by lia. apply (jword_hi _ _ H).
  - intros s t v r H. cbn [jitems]. destruct (jvalue f s) as [[v0 r0]|] eqn:E; [|discriminate]. destruct (IHv _ _ _ _ H E) as (v' & r' & -> & Hr). pose proof (jskip_hi _ _ Hr) as Hs.
    inversion Hs as [Ea Eb|x s2 t2 Hx H2 Ea Eb|x d ds s2 t2 Hx Hd Hds H2 Ea Eb]; [discriminate| |].
    + destruct (x =? JCLOSE); [intros E2; injection E2 as <- <-; eauto|]. destruct (x =? COMMA); [|discriminate]. destruct (jitems f (jskip s2)) as [[l r3]|] eqn:E3; [|discriminate].
      destruct (IHi _ _ _ _ (jskip_hi _ _ H2) E3) as (l' & r'' & -> & Hr3). intros E2; injection E2 as <- <-. eauto.
    + unfold high, JCLOSE, COMMA in *. replace (x =? 93) with false by lia. replace (x =? 44) with false by lia. discriminate.
  - intros s t v r H. inversion H as [|c s' t' Hc H'|c d ds s' t' Hc Hd Hds H']; subst; [discriminate| |].
    + cbn [jmembers]. destruct (c =? QUOTE); [|discriminate]. destruct (jscan s') as [[key r0]|] eqn:E0; [|discriminate]. destruct (jscan_hi _ _ H' _ _ E0) as (key' & r0' & -> & Hr0).
      pose proof (jskip_hi _ _ Hr0) as Hs. inversion Hs as [Ea Eb|x s2 t2 Hx H2 Ea Eb|x d ds s2 t2 Hx Hd Hds H2 Ea Eb]; [discriminate| |].
      * destruct (x =? JCOLON); [|discriminate]. destruct (jvalue f (jskip s2)) as [[v0 r3]|] eqn:E; [|discriminate]. destruct (IHv _ _ _ _ (jskip_hi _ _ H2) E) as (v' & r' & -> & Hr).
        pose proof (jskip_hi _ _ Hr) as Hs3. inversion Hs3 as [Ea' Eb'|y s4 t4 Hy H4 Ea' Eb'|y d ds s4 t4 Hy Hd Hds H4 Ea' Eb']; [discriminate| |].
        -- destruct (y =? CLOSE); [intros E2; injection E2 as <- <-; eauto|]. destruct (y =? COMMA); [|discriminate]. destruct (jmembers f (jskip s4)) as [[l r5]|] eqn:E5; [|discriminate].
           destruct (IHm _ _ _ _ (jskip_hi _ _ H4) E5) as (l' & r'' & -> & Hr5). intros E2; injection E2 as <- <-. eauto.
        -- unfold high, CLOSE, COMMA in *. replace (y =? 125) with false by lia. replace (y =? 44) with false by lia. discriminate.
      * unfold high, JCOLON in *. replace (x =? 58) with false by lia. discriminate.
    + cbn [jmembers]. unfold high, QUOTE in *. replace (c =? 34) with false by lia. discriminate.
Qed.
Theorem jload_hi s t : hi_eq s t -> (match t with 65279 :: _ => False | _ => True end) -> jload s <> None -> jload t <> None.
Proof.
  intros H Ht Hs. destruct (jload s) as [v|] eqn:E; [|congruence]. clear Hs.
  assert (Hp : exists r, jvalue (S (2 * length s)) (jskip s) = Some (v, r) /\ jskip r = []).
  { unfold jload in E. destruct s as [|c s']; [discriminate|]. assert (E' : match jvalue (S (2 * length (c :: s'))) (jskip (c :: s')) with Some (v, r) => match jskip r with [] => Some v | _ => None end | None => None end = Some v).
    { destruct c as [|p]; [exact E|]. do 16 (destruct p as [p|p|]; try exact E). }
    destruct (jvalue _ _) as [[v' r]|]; [|discriminate]. exists r. destruct (jskip r) eqn:Er; [|discriminate]. injection E' as <-. auto. }
  destruct Hp as (r & Hp & Hr). destruct (proj1 (parse_hi _) _ _ _ _ (jskip_hi _ _ H) Hp) as (v' & r' & Hp' & Hr'). apply jskip_hi in Hr'. rewrite Hr in Hr'. inversion Hr' as [Ea Eb| |].
  rewrite (jload_fuel t _ _ _ Ht Hp' (eq_sym Eb)). discriminate.
Qed.
