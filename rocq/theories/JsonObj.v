(** JSON texts of dictionaries: json.dump(..., ensure_ascii=False, indent=2) of any value, and what
    json.load makes of it.  Models only the Python standard library, like JsonText.v. *)
From Verif Require Import PyBase PyText Utf Brace JsonText JsonTextProofs.
Open Scope list_scope.
Open Scope N_scope.

Section Ind.
  Variable P : jval -> Prop.
  Hypothesis Hnull : P Jnull.
  Hypothesis Hbool : forall b, P (Jbool b).
  Hypothesis Hnum : forall s, P (Jnum s).
  Hypothesis Hstr : forall s, P (Jstr s).
  Hypothesis Hlist : forall l, Forall P l -> P (Jlist l).
  Hypothesis Hobj : forall d, Forall (fun e => P (snd e)) d -> P (Jobj d).
  Fixpoint jval_ind2 (j : jval) : P j :=
    match j with
    | Jnull => Hnull | Jbool b => Hbool b | Jnum s => Hnum s | Jstr s => Hstr s
    | Jlist l => Hlist l ((fix go l : Forall P l := match l with [] => Forall_nil _ | x :: r => Forall_cons _ (jval_ind2 x) (go r) end) l)
    | Jobj d => Hobj d ((fix go d : Forall (fun e => P (snd e)) d :=
                         match d with [] => Forall_nil _ | e :: r => Forall_cons e (jval_ind2 (snd e)) (go r) end) d)
    end.
End Ind.

(** json.dump of any value *)
Fixpoint jprint (ind : nat) (v : jval) : list N :=
  match v with
  | Jnull => jnull
  | Jbool b => if b then w_true else w_false
  | Jnum s => s
  | Jstr s => jstring s
  | Jlist [] => [JOPEN; JCLOSE]
  | Jlist (x :: l) =>
    JOPEN :: jnl (S ind) ++ jprint (S ind) x ++
    (fix items (l : list jval) : list N :=
       match l with
       | [] => jnl ind ++ [JCLOSE]
       | y :: r => COMMA :: jnl (S ind) ++ jprint (S ind) y ++ items r
       end) l
  | Jobj [] => [OPEN; CLOSE]
  | Jobj ((k, x) :: l) =>
    OPEN :: jnl (S ind) ++ jstring k ++ [JCOLON; 32] ++ jprint (S ind) x ++
    (fix members (l : list (list N * jval)) : list N :=
       match l with
       | [] => jnl ind ++ [CLOSE]
       | (k, y) :: r => COMMA :: jnl (S ind) ++ jstring k ++ [JCOLON; 32] ++ jprint (S ind) y ++ members r
       end) l
  end.

(** every string in a value, keys included *)
Fixpoint jstrs (v : jval) : list (list N) :=
  match v with
  | Jstr s => [s]
  | Jlist l => flat_map jstrs l
  | Jobj d => flat_map (fun e => fst e :: jstrs (snd e)) d
  | _ => []
  end.
(** the decimal literals of the natural numbers *)
Definition natlit (s : list N) : bool :=
  match s with [] => false | [c] => digit c | c :: t => digit c && negb (c =? 48) && forallb digit t end.
(** a value whose numbers are natural numbers *)
Fixpoint numsok (v : jval) : bool :=
  match v with
  | Jnum s => natlit s
  | Jlist l => forallb numsok l
  | Jobj d => forallb (fun e => numsok (snd e)) d
  | _ => true
  end.
(** what can be written and read: natural numbers only, no surrogates *)
Definition jgood (v : jval) : Prop := numsok v = true /\ Forall (Forall scalar) (jstrs v).

Definition ptail (ind : nat) : list jval -> list N :=
  fix items (l : list jval) : list N :=
    match l with [] => jnl ind ++ [JCLOSE] | y :: r => COMMA :: jnl (S ind) ++ jprint (S ind) y ++ items r end.
Definition pmore (ind : nat) : list (list N * jval) -> list N :=
  fix members (l : list (list N * jval)) : list N :=
    match l with [] => jnl ind ++ [CLOSE] | (k, y) :: r => COMMA :: jnl (S ind) ++ jstring k ++ [JCOLON; 32] ++ jprint (S ind) y ++ members r end.
Lemma jprint_list ind x l : jprint ind (Jlist (x :: l)) = JOPEN :: jnl (S ind) ++ jprint (S ind) x ++ ptail ind l.
Proof. reflexivity. Qed.
Lemma jprint_obj ind k x l : jprint ind (Jobj ((k, x) :: l)) = OPEN :: jnl (S ind) ++ jstring k ++ [JCOLON; 32] ++ jprint (S ind) x ++ pmore ind l.
Proof. reflexivity. Qed.
Lemma ptail_cons ind y l : ptail ind (y :: l) = COMMA :: jnl (S ind) ++ jprint (S ind) y ++ ptail ind l.
Proof. reflexivity. Qed.
Lemma pmore_cons ind k y l : pmore ind ((k, y) :: l) = COMMA :: jnl (S ind) ++ jstring k ++ [JCOLON; 32] ++ jprint (S ind) y ++ pmore ind l.
Proof. reflexivity. Qed.

(** agrees with the writer of JsonText.v *)
Lemma jprint_jv v : forall ind, jprint ind (jv v) = jdump ind v.
Proof.
  induction v as [|s|l IH] using BraceMore.val_ind2; intros ind; try reflexivity. cbn [jv]. destruct l as [|x l]; [reflexivity|]. cbn [map]. rewrite jprint_list, jdump_list.
  inversion IH as [|? ? Hx Hl]; subst. rewrite Hx. do 3 f_equal. clear x IH Hx. induction l as [|y l IHl]; [reflexivity|]. inversion Hl as [|? ? Hy Hl']; subst.
  cbn [map]. rewrite ptail_cons. change (jtail ind (y :: l)) with (COMMA :: jnl (S ind) ++ jdump (S ind) y ++ jtail ind l). rewrite Hy, (IHl Hl'). reflexivity.
Qed.

Lemma natlit_digits s : natlit s = true -> exists c t, s = c :: t /\ forallb digit s = true.
Proof.
  destruct s as [|c [|d t]]; [discriminate| |]; intros H; exists c; eexists; (split; [reflexivity|]).
  - cbn [natlit forallb] in *. rewrite H. reflexivity.
  - unfold natlit in H. cbn [forallb] in *. apply andb_true_iff in H. destruct H as [H1 H2]. apply andb_true_iff in H1. destruct H1 as [H1 _]. rewrite H1, H2. reflexivity.
Qed.
Lemma digit_range c : digit c = true -> 48 <= c <= 57.
Proof. unfold digit. intros H. apply andb_true_iff in H. lia. Qed.
Lemma digit_start c : digit c = true -> jstart c /\ c <> CLOSE /\ c <> 65279.
Proof.
  intros H. apply digit_range in H. unfold jstart, jws, JCLOSE, COMMA, CLOSE. repeat split; try lia.
Qed.
Lemma jprint_start ind v : numsok v = true -> exists c t, jprint ind v = c :: t /\ jstart c /\ c <> CLOSE /\ c <> 65279.
Proof.
  destruct v as [|[]|s|s|[|x l]|[|[k x] l]]; intros H; try discriminate.
  all: try (destruct (natlit_digits _ H) as (c & t & -> & Hd); cbn [forallb] in Hd; apply andb_true_iff in Hd; exists c, t; split; [reflexivity|apply digit_start, Hd]).
  all: try (eexists; eexists; split; [reflexivity|]; repeat split; discriminate).
Qed.
Lemma jskip_print ind v s : numsok v = true -> jskip (jprint ind v ++ s) = jprint ind v ++ s.
Proof. intros Hn. destruct (jprint_start ind v Hn) as (c & t & -> & (H & _) & _). cbn [app jskip]. rewrite H. reflexivity. Qed.

Fixpoint jneed (v : jval) : nat :=
  match v with
  | Jlist l => S (S ((fix go l := match l with [] => O | x :: r => S (Nat.max (jneed x) (go r)) end) l))
  | Jobj d => S (S ((fix go (d : list (list N * jval)) := match d with [] => O | (_, x) :: r => S (Nat.max (jneed x) (go r)) end) d))
  | _ => 1%nat
  end.
Definition jneeds : list jval -> nat := fix go l := match l with [] => O | x :: r => S (Nat.max (jneed x) (go r)) end.
Definition jneedm : list (list N * jval) -> nat := fix go d := match d with [] => O | (_, x) :: r => S (Nat.max (jneed x) (go r)) end.

(** the text after a value does not go on with a number *)
Definition stops (rest : list N) : Prop := match rest with [] => True | c :: _ => digit c = false /\ c <> 46 /\ c <> 101 /\ c <> 69 end.
Lemma digits_stop s rest : forallb digit s = true -> stops rest -> digits (s ++ rest) = (s, rest).
Proof.
  induction s as [|c s IH]; intros H Hs.
  - destruct rest as [|c r]; [reflexivity|]. destruct Hs as [Hs _]. cbn [app digits]. rewrite Hs. reflexivity.
  - cbn [forallb] in H. apply andb_true_iff in H. destruct H as [H1 H2]. cbn [app digits]. rewrite H1, (IH H2 Hs). reflexivity.
Qed.
Lemma jnumber_stop s rest : natlit s = true -> stops rest -> jnumber (s ++ rest) = Some (Jnum s, rest).
Proof.
  intros Hl Hs. destruct (natlit_digits _ Hl) as (c & t & E & Hd).
  assert (Hc : 48 <= c <= 57) by (subst s; cbn [forallb] in Hd; apply andb_true_iff in Hd; apply digit_range, Hd).
  assert (Hi : jint (s ++ rest) = Some (s, rest)).
  { rewrite <- (digits_stop s rest Hd Hs). subst s. cbn [app jint]. destruct (c =? 48) eqn:E0.
    - destruct t as [|d t]; [|unfold natlit in Hl; rewrite E0 in Hl; cbn [negb andb] in Hl; rewrite andb_false_r in Hl; discriminate].
      cbn [app]. pose proof (digits_stop [c] rest Hd Hs) as Q. cbn [app] in Q. rewrite Q. reflexivity.
    - cbn [forallb] in Hd. apply andb_true_iff in Hd. destruct Hd as [Hd _]. rewrite Hd. reflexivity. }
  assert (Hf : jfrac rest = ([], rest)). { destruct rest as [|x r]; [reflexivity|]. destruct Hs as (_ & H & _). cbn [jfrac]. replace (x =? 46) with false by lia. reflexivity. }
  assert (He : jexp rest = ([], rest)). { destruct rest as [|x r]; [reflexivity|]. destruct Hs as (_ & _ & H1 & H2). cbn [jexp]. replace (x =? 101) with false by lia. replace (x =? 69) with false by lia. reflexivity. }
  assert (H0 : match s ++ rest with [] => ([], []) | c :: t => if c =? 45 then ([c], t) else ([], s ++ rest) end = ([], s ++ rest)) by (rewrite E; cbn [app]; replace (c =? 45) with false by lia; reflexivity).
  unfold jnumber. rewrite H0, Hi, Hf, He. cbn [app]. rewrite !app_nil_r. reflexivity.
Qed.
Lemma jword_num s rest : natlit s = true -> stops rest -> jword (s ++ rest) = Some (Jnum s, rest).
Proof.
  intros Hl Hs. rewrite <- (jnumber_stop s rest Hl Hs). destruct (natlit_digits _ Hl) as (c & t & E & Hd).
  assert (Hc : 48 <= c <= 57) by (subst s; cbn [forallb] in Hd; apply andb_true_iff in Hd; apply digit_range, Hd).
  assert (W : forall w d, d <> c -> starts (d :: w) (s ++ rest) = false).
  { intros w d Hn. subst s. cbn [app]. cbn [starts]. replace (d =? c) with false by lia. reflexivity. }
  unfold jword, jnull, w_true, w_false, w_nan, w_inf, w_ninf. rewrite !W by lia. reflexivity.
Qed.

Definition reads (v : jval) : Prop := jgood v -> forall ind fuel rest, stops rest -> (jneed v <= fuel)%nat -> jvalue fuel (jprint ind v ++ rest) = Some (v, rest).

Lemma jgood_list x l : jgood (Jlist (x :: l)) -> jgood x /\ jgood (Jlist l).
Proof.
  intros [A B]. cbn [numsok forallb] in A. apply andb_true_iff in A. cbn [jstrs flat_map] in B. apply Forall_app in B. destruct A, B. repeat split; assumption.
Qed.
Lemma jgood_obj k x l : jgood (Jobj ((k, x) :: l)) -> Forall scalar k /\ jgood x /\ jgood (Jobj l).
Proof.
  intros [A B]. cbn [numsok forallb snd] in A. apply andb_true_iff in A. cbn [jstrs flat_map fst snd app] in B. inversion B as [|? ? B0 B1]; subst. apply Forall_app in B1. destruct A, B1. repeat split; assumption.
Qed.

Lemma items_print ind : forall l x k rest, Forall reads (x :: l) -> jgood (Jlist (x :: l)) -> (jneeds (x :: l) <= k)%nat ->
  jitems k (jprint (S ind) x ++ ptail ind l ++ rest) = Some (x :: l, rest).
Proof.
  induction l as [|y l IHl]; intros x k rest HF Hg Hk.
  - destruct k as [|k]; [cbn in Hk; lia|]. cbn [jneeds] in Hk. fold jneeds in Hk. inversion HF as [|? ? Hx _]; subst. destruct (jgood_list _ _ Hg) as [G1 _].
    cbn [jitems]. rewrite (Hx G1) by (first [lia|cbn; repeat split; discriminate]). cbn [ptail]. rewrite <- app_assoc, jskip_jnl. reflexivity.
  - destruct k as [|k]; [cbn in Hk; lia|]. inversion HF as [|? ? Hx HF']; subst. destruct (jgood_list _ _ Hg) as [G1 G2].
    assert (E : jneeds (x :: y :: l) = S (Nat.max (jneed x) (jneeds (y :: l)))) by reflexivity. rewrite E in Hk. cbn [jitems].
    rewrite (Hx G1) by (first [lia|cbn; repeat split; discriminate]). rewrite ptail_cons. cbn [app jskip]. change (jws COMMA) with false. cbn iota.
    change (COMMA =? JCLOSE) with false. change (COMMA =? COMMA) with true. cbn iota. rewrite <- !app_assoc, jskip_jnl, jskip_print by (destruct (jgood_list _ _ G2) as [[G _] _]; exact G).
    rewrite IHl by (first [assumption|lia]). reflexivity.
Qed.
Lemma members_print ind : forall l k0 x k rest, Forall (fun e => reads (snd e)) ((k0, x) :: l) -> jgood (Jobj ((k0, x) :: l)) -> (jneedm ((k0, x) :: l) <= k)%nat ->
  jmembers k (jstring k0 ++ [JCOLON; 32] ++ jprint (S ind) x ++ pmore ind l ++ rest) = Some ((k0, x) :: l, rest).
Proof.
  induction l as [|[k1 y] l IHl]; intros k0 x k rest HF Hg Hk; destruct (jgood_obj _ _ _ Hg) as (Hs & G1 & G2).
  - destruct k as [|k]; [cbn in Hk; lia|]. cbn [jneedm] in Hk. inversion HF as [|? ? Hx _]; subst. cbn [snd] in Hx.
    cbn [jmembers]. unfold jstring at 1. cbn [app]. change (QUOTE =? QUOTE) with true. cbn iota. rewrite <- app_assoc. cbn [app]. rewrite (jscan_string k0 _ Hs).
    cbn [jskip]. change (jws JCOLON) with false. cbn iota. change (JCOLON =? JCOLON) with true. cbn iota. cbn [jskip]. change (jws 32) with true. cbn iota.
    rewrite jskip_print by (destruct G1; assumption). rewrite (Hx G1) by (first [lia|cbn; repeat split; discriminate]). cbn [pmore]. rewrite <- app_assoc, jskip_jnl. reflexivity.
  - destruct k as [|k]; [cbn in Hk; lia|]. inversion HF as [|? ? Hx HF']; subst. cbn [snd] in Hx.
    assert (E : jneedm ((k0, x) :: (k1, y) :: l) = S (Nat.max (jneed x) (jneedm ((k1, y) :: l)))) by reflexivity. rewrite E in Hk.
    cbn [jmembers]. unfold jstring at 1. cbn [app]. change (QUOTE =? QUOTE) with true. cbn iota. rewrite <- app_assoc. cbn [app]. rewrite (jscan_string k0 _ Hs).
    cbn [jskip]. change (jws JCOLON) with false. cbn iota. change (JCOLON =? JCOLON) with true. cbn iota. cbn [jskip]. change (jws 32) with true. cbn iota.
    rewrite jskip_print by (destruct G1; assumption). rewrite (Hx G1) by (first [lia|cbn; repeat split; discriminate]). rewrite pmore_cons. cbn [app jskip]. change (jws COMMA) with false. cbn iota.
    change (COMMA =? CLOSE) with false. change (COMMA =? COMMA) with true. cbn iota. rewrite <- !app_assoc, jskip_jnl.
    assert (Sk : forall r, jskip (jstring k1 ++ r) = jstring k1 ++ r) by (intros r; reflexivity). rewrite Sk.
    assert (I := IHl k1 y k rest HF' G2 ltac:(lia)). cbn [app] in I. rewrite <- ?app_assoc. cbn [app]. rewrite <- app_assoc, I. reflexivity.
Qed.
Lemma jvalue_print v : reads v.
Proof.
  induction v as [|b|s|s|l IH|d IH] using jval_ind2; intros Hg ind fuel rest Hst Hf.
  - destruct fuel as [|k]; [cbn in Hf; lia|]. reflexivity.
  - destruct fuel as [|k]; [cbn in Hf; lia|]. destruct b; reflexivity.
  - destruct Hg as [Hl _]. cbn [numsok] in Hl. destruct fuel as [|k]; [cbn in Hf; lia|]. cbn [jprint]. rewrite <- (jword_num s rest Hl Hst).
    destruct (natlit_digits _ Hl) as (c & t & E & Hd). assert (Hc : 48 <= c <= 57) by (subst s; cbn [forallb] in Hd; apply andb_true_iff in Hd; apply digit_range, Hd).
    rewrite E. cbn [app jvalue]. replace (c =? QUOTE) with false by (unfold QUOTE; lia). replace (c =? JOPEN) with false by (unfold JOPEN; lia). replace (c =? OPEN) with false by (unfold OPEN; lia). reflexivity.
  - destruct fuel as [|k]; [cbn in Hf; lia|]. cbn [jprint jstring app jvalue]. change (QUOTE =? QUOTE) with true. cbn iota.
    rewrite <- app_assoc. cbn [app]. rewrite jscan_string; [reflexivity|]. destruct Hg as [_ H]. inversion H; assumption.
  - destruct l as [|x l]; [destruct fuel as [|k]; [cbn in Hf; lia|]; reflexivity|]. change (jneed (Jlist (x :: l))) with (S (S (jneeds (x :: l)))) in Hf.
    destruct fuel as [|k]; [lia|]. rewrite jprint_list. cbn [app]. rewrite <- !app_assoc. cbn [jvalue].
    change (JOPEN =? QUOTE) with false. change (JOPEN =? JOPEN) with true. cbn iota.
    destruct (jgood_list _ _ Hg) as [[G _] _]. rewrite jskip_jnl, jskip_print by exact G.
    destruct (jprint_start (S ind) x G) as (c & t & Ec & (Hc1 & Hc2 & Hc3) & _). pose proof (items_print ind l x k rest IH Hg) as Hit. rewrite Ec in *. cbn [app] in *.
    replace (c =? JCLOSE) with false by (symmetry; apply N.eqb_neq; exact Hc2). rewrite Hit by lia. reflexivity.
  - destruct d as [|[k0 x] l]; [destruct fuel as [|k]; [cbn in Hf; lia|]; reflexivity|]. change (jneed (Jobj ((k0, x) :: l))) with (S (S (jneedm ((k0, x) :: l)))) in Hf.
    destruct fuel as [|k]; [lia|]. rewrite jprint_obj. cbn [app]. rewrite <- !app_assoc. cbn [jvalue].
    change (OPEN =? QUOTE) with false. change (OPEN =? JOPEN) with false. change (OPEN =? OPEN) with true. cbn iota.
    rewrite jskip_jnl. pose proof (members_print ind l k0 x k rest IH Hg) as Hit. unfold jstring at 1 in Hit. unfold jstring at 1. cbn [app jskip] in *. change (jws QUOTE) with false. cbn iota.
    change (QUOTE =? CLOSE) with false. cbn iota. rewrite <- !app_assoc in *. cbn [app] in *. rewrite Hit by lia. reflexivity.
Qed.
Lemma jneed_length v : numsok v = true -> forall ind, (jneed v <= length (jprint ind v))%nat.
Proof.
  induction v as [|b|s|s|l IH|d IH] using jval_ind2; intros Hn ind; try (cbn; lia); try (destruct b; cbn; lia).
  - destruct (natlit_digits _ Hn) as (c & t & -> & _). cbn. lia.
  - destruct l as [|x l]; [cbn; lia|]. change (jneed (Jlist (x :: l))) with (S (S (S (Nat.max (jneed x) (jneeds l))))). rewrite jprint_list. cbn [length]. rewrite !app_length.
    assert (H : forall l, Forall (fun v => numsok v = true -> forall ind, (jneed v <= length (jprint ind v))%nat) l -> forallb numsok l = true -> (jneeds l + 1 <= length (ptail ind l))%nat).
    { clear. induction l as [|y l IHl]; intros HF Hn; [cbn; lia|]. inversion HF as [|? ? Hy HF']; subst. cbn [forallb] in Hn. apply andb_true_iff in Hn. destruct Hn as [N1 N2].
      change (jneeds (y :: l)) with (S (Nat.max (jneed y) (jneeds l))). rewrite ptail_cons. cbn [length]. rewrite !app_length. pose proof (jnl_len (S ind)). specialize (IHl HF' N2). specialize (Hy N1 (S ind)). lia. }
    cbn [numsok forallb] in Hn. apply andb_true_iff in Hn. destruct Hn as [N1 N2]. inversion IH as [|? ? Hx HF]; subst. specialize (H l HF N2). specialize (Hx N1 (S ind)). pose proof (jnl_len (S ind)). lia.
  - destruct d as [|[k x] l]; [cbn; lia|]. change (jneed (Jobj ((k, x) :: l))) with (S (S (S (Nat.max (jneed x) (jneedm l))))). rewrite jprint_obj. cbn [length]. rewrite !app_length.
    assert (H : forall l, Forall (fun e => numsok (snd e) = true -> forall ind, (jneed (snd e) <= length (jprint ind (snd e)))%nat) l -> forallb (fun e => numsok (snd e)) l = true -> (jneedm l + 1 <= length (pmore ind l))%nat).
    { clear. induction l as [|[k y] l IHl]; intros HF Hn; [cbn; lia|]. inversion HF as [|? ? Hy HF']; subst. cbn [forallb snd] in Hn, Hy. apply andb_true_iff in Hn. destruct Hn as [N1 N2].
      change (jneedm ((k, y) :: l)) with (S (Nat.max (jneed y) (jneedm l))). rewrite pmore_cons. cbn [length]. rewrite !app_length. pose proof (jnl_len (S ind)). specialize (IHl HF' N2). specialize (Hy N1 (S ind)). lia. }
    cbn [numsok forallb snd] in Hn. apply andb_true_iff in Hn. destruct Hn as [N1 N2]. inversion IH as [|? ? Hx HF]; subst. cbn [snd] in Hx. specialize (H l HF N2). specialize (Hx N1 (S ind)). pose proof (jnl_len (S ind)). lia.
Qed.
(** json.load reads what json.dump wrote *)
Theorem jload_print v : jgood v -> jload (jprint 0 v) = Some v.
Proof.
  intros Hg. destruct Hg as [Hn Hs]. destruct (jprint_start 0 v Hn) as (c & t & Ec & (Hc & _) & _ & Hbom).
  apply (jload_fuel _ (length (jprint 0 v)) v []); [| |reflexivity].
  - rewrite Ec. destruct c as [|p]; [exact I|]. do 16 (destruct p as [p|p|]; try exact I). contradiction.
  - pose proof (jskip_print 0 v [] Hn) as H. rewrite app_nil_r in H. rewrite H. rewrite <- (app_nil_r (jprint 0 v)) at 2.
    apply jvalue_print; [split; assumption|exact I|]. apply jneed_length. exact Hn.
Qed.

(** the text has no carriage returns and only characters of the strings *)
Lemma jescape_chars s c : In c (flat_map jescape s) -> c <> CR /\ (In c s \/ c < 128).
Proof.
  intros H. apply in_flat_map in H. destruct H as (x & Hx & Hc). destruct (N.ltb_spec x 32) as [L|L].
  - apply small_in in L. cbn [map seq N.of_nat] in L.
    assert (G : forall l, jescape x = l -> forallb (fun c => (c <? 128) && negb (c =? CR)) l = true -> c <> CR /\ (In c s \/ c < 128)).
    { intros l El Hl. rewrite El in Hc. rewrite forallb_forall in Hl. apply Hl in Hc. apply andb_true_iff in Hc. destruct Hc as [A B]. apply N.ltb_lt in A. apply negb_true_iff, N.eqb_neq in B. auto. }
    repeat (destruct L as [<-|L]; [eapply G; [reflexivity|reflexivity]|]). destruct L.
  - unfold jescape in Hc. replace (x =? 10) with false in Hc by lia. replace (x =? 13) with false in Hc by lia. replace (x =? 9) with false in Hc by lia.
    replace (x =? 12) with false in Hc by lia. replace (x =? 8) with false in Hc by lia. replace (x <? 32) with false in Hc by lia.
    destruct (x =? QUOTE) eqn:E1; [destruct Hc as [<-|[<-|[]]]; split; try discriminate; right; reflexivity|].
    destruct (x =? BSL) eqn:E2; [destruct Hc as [<-|[<-|[]]]; split; try discriminate; right; reflexivity|].
    destruct Hc as [<-|[]]. split; [unfold CR; lia|left; exact Hx].
Qed.
Definition okc (ss : list (list N)) (c : N) : Prop := c <> CR /\ (In c (concat ss) \/ c < 128).
Lemma okc_app ss a b : Forall (okc ss) a -> Forall (okc ss) b -> Forall (okc ss) (a ++ b).
Proof. intros. apply Forall_app. auto. Qed.
Lemma okc_ascii ss a : forallb (fun c => (c <? 128) && negb (c =? CR)) a = true -> Forall (okc ss) a.
Proof. intros H. rewrite forallb_forall in H. apply Forall_forall. intros c Hc. apply H in Hc. apply andb_true_iff in Hc. destruct Hc as [A B]. apply N.ltb_lt in A. apply negb_true_iff, N.eqb_neq in B. split; auto. Qed.
Lemma okc_more ss ss' a : incl (concat ss) (concat ss') -> Forall (okc ss) a -> Forall (okc ss') a.
Proof. intros H. apply Forall_impl. intros c [A [B|B]]; split; auto. Qed.
Lemma okc_jnl ss n : Forall (okc ss) (jnl n).
Proof. apply okc_ascii. unfold jnl. cbn [forallb]. change ((LF <? 128) && negb (LF =? CR)) with true. cbn [andb]. induction (2 * n)%nat as [|k IH]; [reflexivity|]. cbn [repeat forallb]. exact IH. Qed.
Lemma okc_string ss s : incl s (concat ss) -> Forall (okc ss) (jstring s).
Proof.
  intros H. unfold jstring. constructor; [split; [discriminate|right; reflexivity]|]. apply okc_app; [|apply okc_ascii; reflexivity].
  apply Forall_forall. intros c Hc. destruct (jescape_chars s c Hc) as [A [B|B]]; split; auto.
Qed.
Lemma jprint_okc v : numsok v = true -> forall ind, Forall (okc (jstrs v)) (jprint ind v).
Proof.
  induction v as [|b|s|s|l IH|d IH] using jval_ind2; intros Hn ind; try discriminate.
  - apply okc_ascii. reflexivity.
  - apply okc_ascii. destruct b; reflexivity.
  - destruct (natlit_digits _ Hn) as (_ & _ & _ & Hd). apply okc_ascii. cbn [jprint]. rewrite forallb_forall in *. intros c Hc. apply Hd, digit_range in Hc. unfold CR. lia.
  - apply okc_string. cbn [jstrs concat]. rewrite app_nil_r. apply incl_refl.
  - destruct l as [|x l]; [apply okc_ascii; reflexivity|]. rewrite jprint_list. cbn [numsok forallb] in Hn. apply andb_true_iff in Hn. destruct Hn as [N1 N2]. inversion IH as [|? ? Hx HF]; subst.
    constructor; [split; [discriminate|right; reflexivity]|]. apply okc_app; [apply okc_jnl|]. apply okc_app.
    + eapply okc_more; [|exact (Hx N1 (S ind))]. cbn [jstrs flat_map]. rewrite concat_app. apply incl_appl, incl_refl.
    + assert (G : forall l, Forall (fun v => numsok v = true -> forall ind, Forall (okc (jstrs v)) (jprint ind v)) l -> forallb numsok l = true -> Forall (okc (flat_map jstrs l)) (ptail ind l)).
      { clear. induction l as [|y l IHl]; intros HF Hn; [cbn [ptail]; apply okc_app; [apply okc_jnl|apply okc_ascii; reflexivity]|]. inversion HF as [|? ? Hy HF']; subst. cbn [forallb] in Hn. apply andb_true_iff in Hn. destruct Hn as [N1 N2].
        rewrite ptail_cons. constructor; [split; [discriminate|right; reflexivity]|]. apply okc_app; [apply okc_jnl|]. cbn [flat_map]. apply okc_app.
        - eapply okc_more; [|exact (Hy N1 (S ind))]. rewrite concat_app. apply incl_appl, incl_refl.
        - eapply okc_more; [|exact (IHl HF' N2)]. rewrite concat_app. apply incl_appr, incl_refl. }
      eapply okc_more; [|exact (G l HF N2)]. cbn [jstrs flat_map]. rewrite concat_app. apply incl_appr, incl_refl.
  - destruct d as [|[k x] l]; [apply okc_ascii; reflexivity|]. rewrite jprint_obj. cbn [numsok forallb snd] in Hn. apply andb_true_iff in Hn. destruct Hn as [N1 N2]. inversion IH as [|? ? Hx HF]; subst. cbn [snd] in Hx.
    constructor; [split; [discriminate|right; reflexivity]|]. apply okc_app; [apply okc_jnl|]. apply okc_app; [apply okc_string; cbn [jstrs flat_map fst app concat]; apply incl_appl, incl_refl|].
    apply okc_app; [apply okc_ascii; reflexivity|]. apply okc_app.
    + eapply okc_more; [|exact (Hx N1 (S ind))]. cbn [jstrs flat_map fst snd app concat]. rewrite concat_app. apply incl_appr, incl_appl, incl_refl.
    + assert (G : forall l, Forall (fun e => numsok (snd e) = true -> forall ind, Forall (okc (jstrs (snd e))) (jprint ind (snd e))) l -> forallb (fun e => numsok (snd e)) l = true ->
                 Forall (okc (flat_map (fun e => fst e :: jstrs (snd e)) l)) (pmore ind l)).
      { clear. induction l as [|[k y] l IHl]; intros HF Hn; [cbn [pmore]; apply okc_app; [apply okc_jnl|apply okc_ascii; reflexivity]|]. inversion HF as [|? ? Hy HF']; subst. cbn [forallb snd] in Hn, Hy. apply andb_true_iff in Hn. destruct Hn as [N1 N2].
        rewrite pmore_cons. constructor; [split; [discriminate|right; reflexivity]|]. apply okc_app; [apply okc_jnl|]. cbn [flat_map fst snd app].
        apply okc_app; [apply okc_string; cbn [concat]; apply incl_appl, incl_refl|]. do 2 (constructor; [split; [discriminate|right; reflexivity]|]). apply okc_app.
        - eapply okc_more; [|exact (Hy N1 (S ind))]. cbn [concat]. rewrite concat_app. apply incl_appr, incl_appl, incl_refl.
        - eapply okc_more; [|exact (IHl HF' N2)]. cbn [concat]. rewrite concat_app. apply incl_appr, incl_appr, incl_refl. }
      eapply okc_more; [|exact (G l HF N2)]. cbn [jstrs flat_map fst snd app concat]. rewrite concat_app. apply incl_appr, incl_appr, incl_refl.
Qed.
Lemma jprint_chars v ind : jgood v -> ~ In CR (jprint ind v) /\ Forall scalar (jprint ind v).
Proof.
  intros [Hn Hs]. pose proof (jprint_okc v Hn ind) as H. rewrite Forall_forall in H. split.
  - intros Hin. apply H in Hin. destruct Hin as [A _]. apply A. reflexivity.
  - apply Forall_forall. intros c Hc. destruct (H c Hc) as [_ [B|B]].
    + apply in_concat in B. destruct B as (s & B1 & B2). rewrite Forall_forall in Hs. specialize (Hs _ B1). rewrite Forall_forall in Hs. apply Hs. exact B2.
    + split; [lia|]. unfold is_surrogate. lia.
Qed.
