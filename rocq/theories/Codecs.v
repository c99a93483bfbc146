(** Text codecs of the Python runtime by name, and their inversion laws.  Models only the Python
    standard library (codecs 'utf-8', 'utf-8-sig', 'windows-1251'), not /repo. *)
From Coq Require Import String.
From Verif Require Import PyBase Utf Cp1251 PyText.
Open Scope list_scope.
Open Scope N_scope.

Definition e_utf8 : list N := Eval vm_compute in u "utf-8"%string.
Definition e_utf8sig : list N := Eval vm_compute in u "utf-8-sig"%string.
Definition e_cp1251 : list N := Eval vm_compute in u "windows-1251"%string.

(** index of a character in the upper half of the code page *)
Fixpoint index_of (c : N) (l : list N) (i : N) : option N :=
  match l with [] => None | x :: t => if x =? c then Some i else index_of c t (i + 1) end.
Definition cp1251_byte (c : N) : option N :=
  if c <? 128 then Some c else index_of c cp1251_high 128.
(** str.encode('windows-1251') *)
Fixpoint cp1251_encode (s : list N) : res (list N) :=
  match s with
  | [] => Ok []
  | c :: t => match cp1251_byte c with
              | Some b => r <- cp1251_encode t ;; Ok (b :: r)
              | None => Err UnicodeEncodeError
              end
  end.

(** bytes.decode(name) and str.encode(name).  An unknown codec name is a LookupError. *)
Definition codec_decode (name bs : list N) : res (list N) :=
  if str_eqb name e_utf8 then utf8_decode bs
  else if str_eqb name e_utf8sig then utf8sig_decode bs
  else if str_eqb name e_cp1251 then cp1251_decode bs
  else Err GenericException.
Definition codec_encode (name s : list N) : res (list N) :=
  if str_eqb name e_utf8 then utf8_encode s
  else if str_eqb name e_utf8sig then utf8sig_encode s
  else if str_eqb name e_cp1251 then cp1251_encode s
  else Err GenericException.

(** ** Laws *)
Lemma utf8_char_inv4 a b c d v : (240 <=? a) && (a <? 245) = true -> cont b && cont c && cont d && (65536 <=? v) && (v <? 1114112) = true ->
  v = (a - 240) * 262144 + (b - 128) * 4096 + (c - 128) * 64 + (d - 128) -> utf8_char v = [a; b; c; d].
Proof.
  intros Ha Hv Ev. unfold cont in Hv. unfold utf8_char.
  replace (v <? 128) with false by lia. replace (v <? 2048) with false by lia. replace (v <? 65536) with false by lia.
  assert (E1 : v / 262144 = a - 240) by lia. assert (E2 : v / 4096 = (a - 240) * 64 + (b - 128)) by lia.
  assert (E3 : v / 64 = ((a - 240) * 64 + (b - 128)) * 64 + (c - 128)) by lia. assert (E4 : v mod 64 = d - 128) by lia.
  rewrite E1, E2, E3, E4. repeat f_equal; lia.
Qed.
Lemma utf8_char_inv3 a b c v : (224 <=? a) && (a <? 240) = true -> cont b && cont c && (2048 <=? v) && negb (is_surrogate v) = true ->
  v = (a - 224) * 4096 + (b - 128) * 64 + (c - 128) -> utf8_char v = [a; b; c].
Proof.
  intros Ha Hv Ev. unfold cont in Hv. unfold utf8_char.
  replace (v <? 128) with false by lia. replace (v <? 2048) with false by lia. replace (v <? 65536) with true by lia.
  assert (E1 : v / 4096 = a - 224) by lia. assert (E2 : v / 64 = (a - 224) * 64 + (b - 128)) by lia. assert (E4 : v mod 64 = c - 128) by lia.
  rewrite E1, E2, E4. repeat f_equal; lia.
Qed.
Lemma utf8_char_inv2 a b : (194 <=? a) && (a <? 224) = true -> cont b = true -> utf8_char ((a - 192) * 64 + (b - 128)) = [a; b].
Proof.
  intros Ha Hb. unfold cont in Hb. unfold utf8_char. set (v := (a - 192) * 64 + (b - 128)).
  replace (v <? 128) with false by lia. replace (v <? 2048) with true by lia.
  assert (E1 : v / 64 = a - 192) by lia. assert (E4 : v mod 64 = b - 128) by lia. rewrite E1, E4. repeat f_equal; lia.
Qed.
(** what the strict decoder yields is valid text and encodes to the same bytes *)
Lemma utf8_decode_canon : forall n bs s, (length bs <= n)%nat -> utf8_decode bs = Ok s -> Forall scalar s /\ flat_map utf8_char s = bs.
Proof.
  induction n as [|n IH]; intros bs s Hn H; destruct bs as [|a t]; cbn [length] in Hn; try lia.
  - injection H as <-. split; [constructor|reflexivity].
  - injection H as <-. split; [constructor|reflexivity].
  - cbn [utf8_decode] in H. destruct (a <? 128) eqn:E1.
    { destruct (utf8_decode t) as [r|] eqn:Er; [|discriminate]. cbn [bind] in H. injection H as <-.
      destruct (IH t r ltac:(lia) Er) as [Hs <-]. split.
      - constructor; [split; [lia|unfold is_surrogate; lia]|exact Hs].
      - cbn [flat_map]. unfold utf8_char at 1. rewrite E1. reflexivity. }
    destruct ((194 <=? a) && (a <? 224)) eqn:E2.
    { destruct t as [|b t]; [discriminate|]. destruct (cont b) eqn:Eb; [|discriminate].
      destruct (utf8_decode t) as [r|] eqn:Er; [|discriminate]. cbn [bind] in H. injection H as <-. cbn [length] in Hn.
      destruct (IH t r ltac:(lia) Er) as [Hs <-]. split.
      - constructor; [|exact Hs]. unfold cont in Eb. split; [lia|unfold is_surrogate; lia].
      - cbn [flat_map]. rewrite utf8_char_inv2 by assumption. reflexivity. }
    destruct ((224 <=? a) && (a <? 240)) eqn:E3.
    { destruct t as [|b [|c t]]; [discriminate|discriminate|]. cbv zeta in H.
      set (v := (a - 224) * 4096 + (b - 128) * 64 + (c - 128)) in *. destruct (cont b && cont c && (2048 <=? v) && negb (is_surrogate v)) eqn:Ev; [|discriminate].
      destruct (utf8_decode t) as [r|] eqn:Er; [|discriminate]. cbn [bind] in H. injection H as <-. cbn [length] in Hn.
      destruct (IH t r ltac:(lia) Er) as [Hs <-]. split.
      - constructor; [|exact Hs]. apply andb_true_iff in Ev. destruct Ev as [Ev Es]. split; [unfold cont in Ev; lia|]. apply negb_true_iff. exact Es.
      - cbn [flat_map]. rewrite (utf8_char_inv3 a b c v) by (assumption || reflexivity). reflexivity. }
    destruct ((240 <=? a) && (a <? 245)) eqn:E4; [|discriminate].
    destruct t as [|b [|c [|d t]]]; [discriminate|discriminate|discriminate|]. cbv zeta in H.
    set (v := (a - 240) * 262144 + (b - 128) * 4096 + (c - 128) * 64 + (d - 128)) in *.
    destruct (cont b && cont c && cont d && (65536 <=? v) && (v <? 1114112)) eqn:Ev; [|discriminate].
    destruct (utf8_decode t) as [r|] eqn:Er; [|discriminate]. cbn [bind] in H. injection H as <-. cbn [length] in Hn.
    destruct (IH t r ltac:(lia) Er) as [Hs <-]. split.
    + constructor; [|exact Hs]. split; [lia|unfold is_surrogate; lia].
    + cbn [flat_map]. rewrite (utf8_char_inv4 a b c d v) by (assumption || reflexivity). reflexivity.
Qed.
Lemma scalar_encodes s : Forall scalar s -> utf8_encode s = Ok (flat_map utf8_char s).
Proof.
  intros Hs. unfold utf8_encode. replace (forallb (fun c => negb (is_surrogate c)) s) with true; [reflexivity|].
  symmetry; apply forallb_forall. intros c Hc. rewrite Forall_forall in Hs. destruct (Hs c Hc) as [_ ->]; reflexivity.
Qed.
Lemma utf8_decode_encode bs s : utf8_decode bs = Ok s -> utf8_encode s = Ok bs.
Proof. intros H. destruct (utf8_decode_canon (length bs) bs s (le_n _) H) as [Hs <-]. apply scalar_encodes. exact Hs. Qed.
Lemma utf8_decode_scalar bs s : utf8_decode bs = Ok s -> Forall scalar s.
Proof. intros H. apply (utf8_decode_canon (length bs) bs s (le_n _) H). Qed.
Lemma utf8_encode_decode s bs : Forall scalar s -> utf8_encode s = Ok bs -> utf8_decode bs = Ok s.
Proof. intros Hs H. destruct (utf8_roundtrip s Hs) as (b2 & H1 & H2). congruence. Qed.

Lemma index_of_nth c l : forall i b, index_of c l i = Some b -> i <= b /\ nth_error l (N.to_nat (b - i)) = Some c.
Proof.
  induction l as [|x l IH]; intros i b H; [discriminate|]. cbn [index_of] in H. destruct (N.eqb_spec x c) as [->|Hne].
  - injection H as <-. split; [lia|]. rewrite N.sub_diag. reflexivity.
  - destruct (IH _ _ H) as [H1 H2]. split; [lia|]. replace (N.to_nat (b - i)) with (S (N.to_nat (b - (i + 1)))) by lia. exact H2.
Qed.
Lemma index_of_first l c : NoDup l -> forall k i, nth_error l k = Some c -> index_of c l i = Some (i + N.of_nat k).
Proof.
  induction 1 as [|x l Hx Hn IH]; intros k i H; [destruct k; discriminate|]. cbn [index_of]. destruct k as [|k].
  - injection H as ->. rewrite N.eqb_refl. f_equal. lia.
  - cbn in H. destruct (N.eqb_spec x c) as [->|Hne]; [exfalso; apply Hx; apply nth_error_In in H; exact H|].
    rewrite (IH k (i + 1) H). f_equal. lia.
Qed.
Fixpoint nodupb (l : list N) : bool := match l with [] => true | x :: t => negb (existsb (N.eqb x) t) && nodupb t end.
Lemma nodupb_ok l : nodupb l = true -> NoDup l.
Proof.
  induction l as [|x l IH]; intros H; [constructor|]. cbn in H. apply andb_true_iff in H. destruct H as [H1 H2]. constructor; [|apply IH; exact H2].
  intros Hin. apply negb_true_iff in H1. assert (existsb (N.eqb x) l = true); [|congruence]. apply existsb_exists. exists x. split; [exact Hin|apply N.eqb_refl].
Qed.
Lemma cp1251_nodup : NoDup cp1251_high.
Proof. apply nodupb_ok. vm_compute. reflexivity. Qed.
Lemma cp1251_char_byte b c : cp1251_char b = Some c -> cp1251_byte c = Some b.
Proof.
  intros H. destruct (N.lt_ge_cases b 128) as [Hb|Hb].
  - rewrite cp1251_low in H by exact Hb. injection H as <-. unfold cp1251_byte. replace (b <? 128) with true by lia. reflexivity.
  - pose proof (cp1251_high_ge b c Hb H) as Hc. unfold cp1251_byte. replace (c <? 128) with false by lia.
    unfold cp1251_char in H. replace (b <? 128) with false in H by lia.
    destruct (nth_error cp1251_high (N.to_nat (b - 128))) as [x|] eqn:E; [|discriminate].
    assert (x = c) as -> by (destruct x; [discriminate|congruence]).
    rewrite (index_of_first _ _ cp1251_nodup _ 128 E). f_equal. lia.
Qed.
Lemma cp1251_byte_char c b : cp1251_byte c = Some b -> c <> 0 -> cp1251_char b = Some c.
Proof.
  unfold cp1251_byte. destruct (c <? 128) eqn:E.
  - intros H _. injection H as <-. apply cp1251_low. lia.
  - intros H Hc. destruct (index_of_nth _ _ _ _ H) as [H1 H2]. unfold cp1251_char. replace (b <? 128) with false by lia. rewrite H2. destruct c; [congruence|reflexivity].
Qed.
Lemma cp1251_decode_encode bs : forall s, cp1251_decode bs = Ok s -> cp1251_encode s = Ok bs.
Proof.
  induction bs as [|b bs IH]; intros s H; cbn [cp1251_decode] in H; [injection H as <-; reflexivity|].
  destruct (cp1251_char b) as [c|] eqn:E; [|discriminate]. destruct (cp1251_decode bs) as [r|] eqn:Er; [|discriminate]. cbn [bind] in H. injection H as <-.
  cbn [cp1251_encode]. rewrite (cp1251_char_byte _ _ E), (IH r eq_refl). reflexivity.
Qed.
Lemma cp1251_encode_decode s : forall bs, cp1251_encode s = Ok bs -> cp1251_decode bs = Ok s.
Proof.
  induction s as [|c s IH]; intros bs H; cbn [cp1251_encode] in H; [injection H as <-; reflexivity|].
  destruct (cp1251_byte c) as [b|] eqn:E; [|discriminate]. destruct (cp1251_encode s) as [r|] eqn:Er; [|discriminate]. cbn [bind] in H. injection H as <-.
  cbn [cp1251_decode]. destruct (N.eq_dec c 0) as [->|Hc].
  - injection E as <-. cbn [cp1251_char]. rewrite (IH r eq_refl). reflexivity.
  - rewrite (cp1251_byte_char _ _ E Hc), (IH r eq_refl). reflexivity.
Qed.
Lemma cp1251_decode_scalar bs : forall s, cp1251_decode bs = Ok s -> Forall scalar s.
Proof.
  assert (Hall : forallb scalarb cp1251_high = true) by (vm_compute; reflexivity). rewrite forallb_forall in Hall.
  assert (Hsc : forall c, scalarb c = true -> scalar c).
  { intros c H. unfold scalarb in H. apply andb_true_iff in H. destruct H as [H1 H2]. split; [lia|]. apply negb_true_iff. exact H2. }
  induction bs as [|b bs IH]; intros s H; cbn [cp1251_decode] in H; [injection H as <-; constructor|].
  destruct (cp1251_char b) as [c|] eqn:E; [|discriminate]. destruct (cp1251_decode bs) as [r|] eqn:Er; [|discriminate]. cbn [bind] in H. injection H as <-.
  constructor; [|apply IH; reflexivity]. unfold cp1251_char in E. destruct (b <? 128) eqn:Eb.
  - injection E as <-. split; [lia|unfold is_surrogate; lia].
  - destruct (nth_error cp1251_high (N.to_nat (b - 128))) as [x|] eqn:En; [|discriminate]. apply nth_error_In in En. apply Hsc, Hall.
    destruct x; [discriminate|]. congruence.
Qed.

(** universal newlines leave no carriage return and no other change of the characters *)
Lemma univ_nl_in s : forall c, In c (univ_nl s) -> c = LF \/ In c s.
Proof.
  assert (G : forall n s c, (length s <= n)%nat -> In c (univ_nl s) -> c = LF \/ In c s).
  { induction n as [|n IH]; intros [|x t] c Hn H; cbn [length] in Hn; try lia; try (destruct H; fail).
    cbn [univ_nl] in H. destruct (x =? CR).
    - destruct t as [|d t]; [destruct H as [<-|[]]; left; reflexivity|].
      destruct (d =? LF); destruct H as [<-|H]; try (left; reflexivity).
      + apply IH in H; [|cbn [length] in Hn; lia]. destruct H; [left|right; right; right]; assumption.
      + apply IH in H; [|cbn [length] in Hn |- *; lia]. destruct H; [left|right; right]; assumption.
    - destruct H as [<-|H]; [right; left; reflexivity|]. apply IH in H; [|lia]. destruct H; [left|right; right]; assumption. }
  intros c. apply (G (length s)). lia.
Qed.
Lemma univ_nl_nocr s : ~ In CR (univ_nl s).
Proof.
  assert (G : forall n s, (length s <= n)%nat -> ~ In CR (univ_nl s)).
  { induction n as [|n IH]; intros [|x t] Hn H; cbn [length] in Hn; try lia; try (destruct H; fail).
    cbn [univ_nl] in H. destruct (x =? CR) eqn:E.
    - destruct t as [|d t]; [destruct H as [H|[]]; discriminate|].
      destruct (d =? LF); destruct H as [H|H]; try discriminate; apply IH in H; cbn [length] in Hn |- *; (lia || assumption).
    - destruct H as [->|H]; [discriminate|]. apply IH in H; (lia || assumption). }
  apply (G (length s)). lia.
Qed.
Lemma scalar_univ_nl s : Forall scalar s -> Forall scalar (univ_nl s).
Proof.
  intros H. apply Forall_forall. intros c Hc. apply univ_nl_in in Hc. destruct Hc as [->|Hc]; [split; [reflexivity|reflexivity]|].
  rewrite Forall_forall in H. apply H. exact Hc.
Qed.
Lemma scalar_write os s : Forall scalar s -> Forall scalar (write_nl os s).
Proof.
  intros H. apply Forall_forall. intros c Hc. unfold write_nl in Hc. apply in_flat_map in Hc. destruct Hc as (x & Hx & Hc).
  rewrite Forall_forall in H. destruct (x =? LF).
  - destruct os; cbn in Hc; destruct Hc as [<-|Hc]; try destruct Hc as [<-|[]]; try (split; reflexivity). destruct Hc.
  - destruct Hc as [<-|[]]. apply H. exact Hx.
Qed.
