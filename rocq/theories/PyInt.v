(** Integers as text and as bytes: format specs, int(), struct pack/unpack.
    Models Python standard library behaviour only. *)
From Verif Require Import PyBase.
Open Scope Z_scope.

(** ** Digits *)
(** lower-case digit character of 0 <= d < 36 *)
Definition digit_char (d : Z) : N := Z.to_N (if d <? 10 then 48 + d else 87 + d).
(** value of a digit character, any case; None if not a digit in this base *)
Definition digit_val (base : Z) (c : N) : option Z :=
  let z := Z.of_N c in
  let v := if (48 <=? z) && (z <=? 57) then z - 48
           else if (97 <=? z) && (z <=? 122) then z - 87
           else if (65 <=? z) && (z <=? 90) then z - 55 else 99 in
  if v <? base then Some v else None.
(** str.upper() restricted to ASCII letters *)
Definition upper_char (c : N) : N := if ((97 <=? c) && (c <=? 122))%N then (c - 32)%N else c.
Definition upper (s : list N) : list N := map upper_char s.

(** digits of v >= 0, most significant first, at least one digit;
    the fuel is an upper bound on the number of digits *)
Fixpoint digits_go (base : Z) (fuel : nat) (v : Z) (acc : list N) : list N :=
  match fuel with
  | O => acc
  | S k => if v <? base then digit_char v :: acc
           else digits_go base k (v / base) (digit_char (v mod base) :: acc)
  end.
Definition digits_of (base v : Z) : list N := digits_go base (S (Z.to_nat (Z.log2 v))) v [].

(** str.rjust(w, '0') *)
Definition rjust0 (w : nat) (s : list N) : list N := repeat 48%N (w - length s) ++ s.

(** f'{v:02x}' *)
Definition fmt_02x (v : Z) : list N :=
  if v <? 0 then 45%N :: digits_of 16 (- v) else rjust0 2 (digits_of 16 v).
(** str(v) for an int *)
Definition str_of_int (v : Z) : list N :=
  if v <? 0 then 45%N :: digits_of 10 (- v) else digits_of 10 v.

(** ** int(text, base)
    [us] = the previous character was an underscore or there is none yet.
    Simplifications: non-ASCII decimal digits are rejected; the 4300-digit limit of
    recent Python versions is not modelled. *)
Fixpoint parse_digits (base : Z) (acc : Z) (us : bool) (s : list N) : option Z :=
  match s with
  | [] => if us then None else Some acc
  | c :: s' =>
    if N.eqb c 95 then (if us then None else parse_digits base acc true s')
    else match digit_val base c with
      | Some d => parse_digits base (acc * base + d) false s'
      | None => None
      end
  end.

Definition strip_0x (s : list N) : list N :=
  match s with
  | a :: b :: t => if N.eqb a 48 && (N.eqb b 120 || N.eqb b 88)
                   then match t with c :: t' => if N.eqb c 95 then t' else t | [] => t end
                   else s
  | _ => s
  end.

Definition parse_unsigned (base : Z) (s : list N) : option Z :=
  parse_digits base 0 true (if base =? 16 then strip_0x s else s).

Definition int_parse (sp : N -> bool) (base : Z) (s : list N) : res Z :=
  let s := strip_by sp s in
  let r := match s with
    | c :: s' => if N.eqb c 45 then match parse_unsigned base s' with Some v => Some (- v) | None => None end
                 else if N.eqb c 43 then parse_unsigned base s'
                 else parse_unsigned base s
    | [] => None
    end in
  match r with Some v => Ok v | None => Err ValueError end.

(** Py_ISSPACE, used by int(bytes, base) *)
Definition is_space_ascii (c : N) : bool := ((9 <=? c) && (c <=? 13) || (c =? 32))%N.
Definition int_of_bytes (base : Z) (s : list N) : res Z := int_parse is_space_ascii base s.
Definition int_of_str (s : list N) : res Z := int_parse is_space 10 s.

(** ** Little-endian integers *)
Fixpoint le_bytes (w : nat) (v : Z) : list N :=
  match w with
  | O => []
  | S k => Z.to_N (v mod 256) :: le_bytes k (v / 256)
  end.
Fixpoint le_val (bs : list N) : Z :=
  match bs with [] => 0 | b :: t => Z.of_N b + 256 * le_val t end.

(** struct.pack/unpack of one integer: 'i' is (signed, 4), 'Q' is (unsigned, 8). *)
Definition pack_int (sgn : bool) (w : nat) (v : Z) : res (list N) :=
  let m := 256 ^ Z.of_nat w in
  let lo := if sgn then - (m / 2) else 0 in
  let hi := if sgn then m / 2 else m in
  if (lo <=? v) && (v <? hi) then Ok (le_bytes w (v mod m)) else Err StructError.
Definition unpack_int (sgn : bool) (bs : list N) : Z :=
  let m := 256 ^ zlen bs in
  let v := le_val bs in
  if sgn && (m / 2 <=? v) then v - m else v.

(** ** Lemmas: digits *)
Lemma digit_val_char base d : 2 <= base <= 36 -> 0 <= d < base -> digit_val base (digit_char d) = Some d.
Proof.
  intros Hb Hd. unfold digit_val, digit_char.
  destruct (d <? 10) eqn:E.
  - rewrite Z2N.id by lia.
    replace ((48 <=? 48 + d) && (48 + d <=? 57)) with true by lia.
    replace (48 + d - 48) with d by lia.
    replace (d <? base) with true by lia. reflexivity.
  - rewrite Z2N.id by lia.
    replace ((48 <=? 87 + d) && (87 + d <=? 57)) with false by lia.
    replace ((97 <=? 87 + d) && (87 + d <=? 122)) with true by lia.
    replace (87 + d - 87) with d by lia.
    replace (d <? base) with true by lia. reflexivity.
Qed.

Lemma digit_val_upper base c d : digit_val base c = Some d -> digit_val base (upper_char c) = Some d.
Proof.
  unfold upper_char. destruct ((97 <=? c) && (c <=? 122))%N eqn:E; [|auto].
  unfold digit_val. intros H.
  replace ((48 <=? Z.of_N c) && (Z.of_N c <=? 57)) with false in H by lia.
  replace ((97 <=? Z.of_N c) && (Z.of_N c <=? 122)) with true in H by lia.
  replace ((48 <=? Z.of_N (c - 32)) && (Z.of_N (c - 32) <=? 57)) with false by lia.
  replace ((97 <=? Z.of_N (c - 32)) && (Z.of_N (c - 32) <=? 122)) with false by lia.
  replace ((65 <=? Z.of_N (c - 32)) && (Z.of_N (c - 32) <=? 90)) with true by lia.
  replace (Z.of_N (c - 32) - 55) with (Z.of_N c - 87) by lia. exact H.
Qed.

(** the value denoted by a string of digits *)
Definition all_digits (base : Z) (s : list N) : Prop :=
  Forall (fun c => (exists d, digit_val base c = Some d /\ 0 <= d) /\ c <> 95%N) s.
Fixpoint dval (base : Z) (acc : Z) (s : list N) : Z :=
  match s with
  | [] => acc
  | c :: s' => dval base (acc * base + match digit_val base c with Some d => d | None => 0 end) s'
  end.

Lemma parse_digits_ok base s : forall acc us,
  all_digits base s -> s <> [] -> parse_digits base acc us s = Some (dval base acc s).
Proof.
  induction s as [|c s IH]; intros acc us H Hne; [congruence|].
  inversion H as [|? ? [[d [Hd Hd0]] Hc] Hs]; subst. cbn [parse_digits dval].
  destruct (N.eqb_spec c 95) as [->|_]; [congruence|].
  rewrite Hd. destruct s as [|c2 s]; [reflexivity|]. apply IH; [exact Hs|discriminate].
Qed.

Lemma dval_app base s t : forall acc, dval base acc (s ++ t) = dval base (dval base acc s) t.
Proof. induction s as [|c s IH]; intros acc; cbn; auto. Qed.

Lemma dval_acc base s : forall acc, dval base acc s = acc * base ^ zlen s + dval base 0 s.
Proof.
  induction s as [|c s IH]; intros acc; cbn [dval].
  - rewrite zlen_nil. change (base ^ 0) with 1. lia.
  - rewrite zlen_cons. rewrite (IH (acc * base + _)), (IH (0 * base + _)).
    rewrite Z.pow_add_r by (pose proof (zlen_nonneg s); lia). rewrite Z.pow_1_r. ring.
Qed.

Lemma dval_bound base s : 2 <= base -> all_digits base s -> 0 <= dval base 0 s < base ^ zlen s.
Proof.
  intros Hb; induction s as [|c s IH]; intros H.
  - cbn [dval]. change (base ^ zlen []) with 1; lia.
  - inversion H as [|? ? [[d [Hd Hd0]] Hc] Hs]; subst. cbn [dval]. rewrite Hd, dval_acc, zlen_cons.
    specialize (IH Hs).
    assert (d < base) by (unfold digit_val in Hd; destruct (_ <? base) eqn:E in Hd; [injection Hd as <-; lia|discriminate]).
    rewrite Z.pow_add_r by (pose proof (zlen_nonneg s); lia). rewrite Z.pow_1_r. nia.
Qed.

Lemma digit_char_not_us d : 0 <= d < 36 -> digit_char d <> 95%N.
Proof. unfold digit_char; destruct (d <? 10) eqn:E; lia. Qed.

Lemma digits_go_spec base : 2 <= base <= 36 -> forall fuel v acc,
  0 <= v -> v < base ^ Z.of_nat fuel -> all_digits base acc -> (0 < fuel)%nat ->
  all_digits base (digits_go base fuel v acc)
  /\ digits_go base fuel v acc <> []
  /\ dval base 0 (digits_go base fuel v acc) = v * base ^ zlen acc + dval base 0 acc.
Proof.
  intros Hb; induction fuel as [|k IH]; intros v acc Hv Hlt Hacc Hf; [lia|].
  cbn [digits_go]. destruct (v <? base) eqn:E.
  - repeat split.
    + constructor; [|exact Hacc]. split; [|apply digit_char_not_us; lia].
      exists v. rewrite digit_val_char by lia. split; [reflexivity|lia].
    + discriminate.
    + cbn [dval]. rewrite digit_val_char by lia. rewrite dval_acc. lia.
  - assert (Hd : 0 <= v mod base < base) by (apply Z.mod_pos_bound; lia).
    assert (Hacc' : all_digits base (digit_char (v mod base) :: acc)).
    { constructor; [|exact Hacc]. split; [|apply digit_char_not_us; lia].
      exists (v mod base). rewrite digit_val_char by lia. split; [reflexivity|lia]. }
    assert (Hq : 0 <= v / base) by (apply Z.div_pos; lia).
    assert (Hk : (0 < k)%nat).
    { destruct k; [|lia]. change (base ^ Z.of_nat 1) with (base ^ 1) in Hlt. rewrite Z.pow_1_r in Hlt. lia. }
    assert (Hql : v / base < base ^ Z.of_nat k).
    { apply Z.div_lt_upper_bound; [lia|]. rewrite Nat2Z.inj_succ, Z.pow_succ_r in Hlt by lia. exact Hlt. }
    destruct (IH (v / base) _ Hq Hql Hacc' Hk) as (H1 & H2 & H3).
    repeat split; [exact H1|exact H2|]. rewrite H3. cbn [dval]. rewrite digit_val_char by lia.
    rewrite zlen_cons, (dval_acc _ acc (0 * base + _)).
    rewrite Z.pow_add_r by (pose proof (zlen_nonneg acc); lia). rewrite Z.pow_1_r.
    pose proof (Z.div_mod v base). nia.
Qed.

Lemma digits_fuel base v : 2 <= base -> 0 <= v -> v < base ^ Z.of_nat (S (Z.to_nat (Z.log2 v))).
Proof.
  intros Hb Hv. rewrite Nat2Z.inj_succ, Z2Nat.id by apply Z.log2_nonneg.
  destruct (Z.eq_dec v 0) as [->|Hne].
  - apply Z.pow_pos_nonneg; [lia|]. pose proof (Z.log2_nonneg 0); lia.
  - pose proof (Z.log2_spec v ltac:(lia)) as [_ H].
    eapply Z.lt_le_trans; [exact H|]. apply Z.pow_le_mono_l. pose proof (Z.log2_nonneg v); lia.
Qed.

Lemma digits_of_spec base v : 2 <= base <= 36 -> 0 <= v ->
  all_digits base (digits_of base v) /\ digits_of base v <> [] /\ dval base 0 (digits_of base v) = v.
Proof.
  intros Hb Hv. unfold digits_of.
  destruct (@digits_go_spec base Hb (S (Z.to_nat (Z.log2 v))) v []) as (H1 & H2 & H3);
    [exact Hv|apply digits_fuel; lia|constructor|lia|].
  repeat split; [exact H1|exact H2|]. rewrite H3. cbn. lia.
Qed.

(** number of digits *)
Lemma digits_go_len base : 2 <= base -> forall fuel v acc w,
  0 <= v -> v < base ^ Z.of_nat w -> (0 < w)%nat ->
  zlen (digits_go base fuel v acc) <= Z.of_nat w + zlen acc.
Proof.
  intros Hb; induction fuel as [|k IH]; intros v acc w Hv Hlt Hw; cbn [digits_go]; [lia|].
  destruct (v <? base) eqn:E.
  - rewrite zlen_cons. lia.
  - destruct w as [|w]; [lia|]. destruct w as [|w].
    { change (base ^ Z.of_nat 1) with (base ^ 1) in Hlt; rewrite Z.pow_1_r in Hlt; lia. }
    assert (Hql : v / base < base ^ Z.of_nat (S w)).
    { apply Z.div_lt_upper_bound; [lia|]. rewrite (Nat2Z.inj_succ (S w)), Z.pow_succ_r in Hlt by lia. exact Hlt. }
    specialize (IH (v / base) (digit_char (v mod base) :: acc) (S w) (Z.div_pos v base ltac:(lia) ltac:(lia)) Hql ltac:(lia)).
    rewrite zlen_cons in IH. lia.
Qed.
Lemma digits_of_len base v w : 2 <= base -> 0 <= v -> v < base ^ Z.of_nat w -> (0 < w)%nat ->
  (length (digits_of base v) <= w)%nat.
Proof.
  intros. pose proof (@digits_go_len base H (S (Z.to_nat (Z.log2 v))) v [] w H0 H1 H2) as Hl.
  unfold digits_of. rewrite zlen_nil in Hl. unfold zlen in Hl. lia.
Qed.
Lemma digits_of_len_ge base v w : 2 <= base <= 36 -> base ^ Z.of_nat w <= v -> (w < length (digits_of base v))%nat.
Proof.
  intros Hb Hv.
  assert (0 <= v) by (pose proof (Z.pow_nonneg base (Z.of_nat w)); lia).
  destruct (digits_of_spec base v Hb H) as (H1 & H2 & H3).
  destruct (Nat.le_gt_cases (length (digits_of base v)) w) as [Hle|]; [|lia].
  pose proof (dval_bound base _ ltac:(lia) H1) as Hbd. rewrite H3 in Hbd.
  assert (base ^ zlen (digits_of base v) <= base ^ Z.of_nat w) by (apply Z.pow_le_mono_r; unfold zlen; lia).
  lia.
Qed.

Lemma all_digits_app base s t : all_digits base s -> all_digits base t -> all_digits base (s ++ t).
Proof. unfold all_digits; rewrite Forall_app; auto. Qed.
Lemma all_digits_zeros base n : 2 <= base <= 36 -> all_digits base (repeat 48%N n).
Proof.
  intros Hb. apply Forall_forall. intros c Hc. apply repeat_spec in Hc; subst.
  split; [|discriminate]. exists 0. split; [|lia].
  unfold digit_val; cbn. replace (0 <? base) with true by lia. reflexivity.
Qed.
Lemma dval_zeros base n acc : 2 <= base -> dval base acc (repeat 48%N n) = acc * base ^ Z.of_nat n.
Proof.
  intros Hb. revert acc; induction n as [|n IH]; intros acc; cbn [repeat dval].
  - change (base ^ Z.of_nat 0) with 1. lia.
  - unfold digit_val; cbn -[Z.mul Z.pow Z.of_nat dval]. replace (0 <? base) with true by lia.
    rewrite IH, Nat2Z.inj_succ, Z.pow_succ_r by lia. ring.
Qed.
Lemma dval_upper base s : forall acc, all_digits base s -> dval base acc (upper s) = dval base acc s.
Proof.
  induction s as [|c s IH]; intros acc H; [reflexivity|].
  inversion H as [|? ? [[d [Hd Hd0]] Hc] Hs]; subst. cbn [upper map dval].
  rewrite (digit_val_upper _ _ _ Hd), Hd. apply IH; exact Hs.
Qed.
Lemma all_digits_upper base s : all_digits base s -> all_digits base (upper s).
Proof.
  intros H; induction H as [|c s [[d [Hd Hd0]] Hc] Hs IH]; cbn; constructor; [|exact IH].
  split; [exists d; split; [apply digit_val_upper; exact Hd|exact Hd0]|].
  unfold upper_char. destruct ((97 <=? c) && (c <=? 122))%N eqn:E; [|exact Hc]. lia.
Qed.

(** a string of digits is parsed by int() to its value *)
Lemma digit_not_special base c d : digit_val base c = Some d -> base <= 36 ->
  c <> 43%N /\ c <> 45%N /\ is_space c = false /\ is_space_ascii c = false.
Proof.
  unfold digit_val. intros H Hb.
  destruct ((48 <=? Z.of_N c) && (Z.of_N c <=? 57)) eqn:E1;
  [|destruct ((97 <=? Z.of_N c) && (Z.of_N c <=? 122)) eqn:E2;
  [|destruct ((65 <=? Z.of_N c) && (Z.of_N c <=? 90)) eqn:E3]].
  4: { exfalso. replace (99 <? base) with false in H by lia. discriminate. }
  all: unfold is_space, is_space_ascii; repeat split; lia.
Qed.

Lemma lstrip_by_nospace sp c s : sp c = false -> lstrip_by sp (c :: s) = c :: s.
Proof. intros H; cbn; rewrite H; reflexivity. Qed.
Lemma strip_by_nospace sp s : Forall (fun c => sp c = false) s -> strip_by sp s = s.
Proof.
  intros H. unfold strip_by, rstrip_by.
  assert (Hl : forall l, Forall (fun c => sp c = false) l -> lstrip_by sp l = l).
  { intros l Hl; inversion Hl; subst; [reflexivity|apply lstrip_by_nospace; auto]. }
  rewrite (Hl s H), Hl, rev_involutive by (apply Forall_rev; exact H). reflexivity.
Qed.

Definition second_not_x (s : list N) : Prop :=
  match s with _ :: b :: _ => b <> 120%N /\ b <> 88%N | _ => True end.
Lemma strip_0x_digits s : all_digits 16 s -> strip_0x s = s.
Proof.
  intros H. destruct s as [|a [|b t]]; try reflexivity. cbn.
  inversion H as [|? ? _ Hs]; subst. inversion Hs as [|? ? [[d [Hd _]] _] _]; subst.
  assert (b <> 120%N /\ b <> 88%N) as [H1 H2].
  { unfold digit_val in Hd. split; intros ->; cbn in Hd; discriminate. }
  apply N.eqb_neq in H1; apply N.eqb_neq in H2. rewrite H1, H2, andb_false_r. reflexivity.
Qed.

Lemma int_parse_digits sp base s : 2 <= base <= 36 ->
  (sp = is_space \/ sp = is_space_ascii) ->
  all_digits base s -> s <> [] -> int_parse sp base s = Ok (dval base 0 s).
Proof.
  intros Hb Hsp H Hne. unfold int_parse.
  rewrite strip_by_nospace.
  2: { eapply Forall_impl; [|exact H]. cbn. intros c [[d [Hd _]] _].
       destruct (digit_not_special _ _ _ Hd ltac:(lia)) as (_ & _ & A & B).
       destruct Hsp as [->| ->]; assumption. }
  destruct s as [|c s]; [congruence|].
  inversion H as [|? ? [[d [Hd Hd0]] Hc] Hs]; subst.
  destruct (digit_not_special _ _ _ Hd ltac:(lia)) as (A & B & _).
  apply N.eqb_neq in A; apply N.eqb_neq in B. rewrite A, B.
  unfold parse_unsigned. destruct (base =? 16) eqn:E.
  - apply Z.eqb_eq in E; subst base. rewrite strip_0x_digits by exact H.
    rewrite parse_digits_ok by (auto; discriminate). reflexivity.
  - rewrite parse_digits_ok by (auto; discriminate). reflexivity.
Qed.

Lemma int_of_str_of_int v : int_of_str (str_of_int v) = Ok v.
Proof.
  unfold str_of_int, int_of_str. destruct (v <? 0) eqn:E.
  - destruct (digits_of_spec 10 (- v) ltac:(lia) ltac:(lia)) as (H1 & H2 & H3).
    unfold int_parse. rewrite strip_by_nospace.
    2: { constructor; [reflexivity|]. eapply Forall_impl; [|exact H1]. cbn. intros c [[d [Hd _]] _].
         destruct (digit_not_special _ _ _ Hd ltac:(lia)) as (_ & _ & A & B). assumption. }
    cbn [N.eqb Pos.eqb]. unfold parse_unsigned. cbn [Z.eqb Pos.eqb].
    rewrite parse_digits_ok by auto. rewrite H3. rewrite Z.opp_involutive. reflexivity.
  - destruct (digits_of_spec 10 v ltac:(lia) ltac:(lia)) as (H1 & H2 & H3).
    rewrite int_parse_digits by (auto; lia). rewrite H3; reflexivity.
Qed.

Lemma str_of_int_inj a b : str_of_int a = str_of_int b -> a = b.
Proof.
  intros H. pose proof (int_of_str_of_int a) as Ha. rewrite H, int_of_str_of_int in Ha.
  injection Ha as ->; reflexivity.
Qed.

(** the text of an integer contains only '-' and digits *)
Lemma str_of_int_chars v c : In c (str_of_int v) -> c = 45%N \/ (48 <= c <= 57)%N.
Proof.
  unfold str_of_int. intros Hin.
  assert (Hd : forall w, 0 <= w -> In c (digits_of 10 w) -> (48 <= c <= 57)%N).
  { intros w Hw Hc. destruct (digits_of_spec 10 w ltac:(lia) Hw) as (H1 & _ & _).
    unfold all_digits in H1. rewrite Forall_forall in H1. destruct (H1 c Hc) as [[d [Hdv _]] _].
    unfold digit_val in Hdv.
    destruct ((48 <=? Z.of_N c) && (Z.of_N c <=? 57)) eqn:E1; [lia|].
    destruct ((97 <=? Z.of_N c) && (Z.of_N c <=? 122)) eqn:E2.
    { replace (Z.of_N c - 87 <? 10) with false in Hdv by lia. discriminate. }
    destruct ((65 <=? Z.of_N c) && (Z.of_N c <=? 90)) eqn:E3.
    { replace (Z.of_N c - 55 <? 10) with false in Hdv by lia. discriminate. }
    cbn in Hdv; discriminate. }
  destruct (v <? 0) eqn:E.
  - destruct Hin as [<-|Hin]; [left; reflexivity|right; eapply Hd; [|exact Hin]; lia].
  - right; eapply Hd; [|exact Hin]; lia.
Qed.
Lemma str_of_int_nonempty v : str_of_int v <> [].
Proof.
  unfold str_of_int. destruct (v <? 0) eqn:E; [discriminate|].
  apply digits_of_spec; lia.
Qed.

(** ** Lemmas: little-endian *)
Lemma le_bytes_len w v : length (le_bytes w v) = w.
Proof. revert v; induction w as [|w IH]; intros v; cbn; [reflexivity|rewrite IH; reflexivity]. Qed.
Lemma zlen_le_bytes w v : zlen (le_bytes w v) = Z.of_nat w.
Proof. unfold zlen; rewrite le_bytes_len; reflexivity. Qed.
Lemma le_val_bytes w v : le_val (le_bytes w v) = v mod 256 ^ Z.of_nat w.
Proof.
  revert v; induction w as [|w IH]; intros v; cbn [le_bytes le_val].
  - change (256 ^ Z.of_nat 0) with 1. rewrite Z.mod_1_r; reflexivity.
  - rewrite IH, Z2N.id by (apply Z.mod_pos_bound; lia).
    rewrite Nat2Z.inj_succ, Z.pow_succ_r by lia.
    rewrite Z.rem_mul_r by (try apply Z.pow_pos_nonneg; lia). reflexivity.
Qed.
Lemma le_bytes_byte w v : Forall (fun b => (b < 256)%N) (le_bytes w v).
Proof.
  revert v; induction w as [|w IH]; intros v; cbn; constructor; auto.
  pose proof (Z.mod_pos_bound v 256). lia.
Qed.
Lemma le_val_bound bs : Forall (fun b => (b < 256)%N) bs -> 0 <= le_val bs < 256 ^ zlen bs.
Proof.
  intros H; induction H as [|b bs Hb Hs IH]; cbn [le_val].
  - change (256 ^ zlen (@nil N)) with 1; lia.
  - rewrite zlen_cons, Z.pow_add_r by (pose proof (zlen_nonneg bs); lia). rewrite Z.pow_1_r. lia.
Qed.
Lemma unpack_pack sgn w v bs : (0 < w)%nat -> pack_int sgn w v = Ok bs -> unpack_int sgn bs = v.
Proof.
  unfold pack_int, unpack_int. intros Hw H.
  set (m := 256 ^ Z.of_nat w) in *.
  assert (Hm : 256 <= m).
  { unfold m. change 256 with (256 ^ 1) at 1. apply Z.pow_le_mono_r; lia. }
  assert (He : m = 2 * (m / 2)).
  { unfold m. destruct w as [|w]; [lia|]. rewrite Nat2Z.inj_succ, Z.pow_succ_r by lia. lia. }
  destruct ((_ <=? v) && (v <? _)) eqn:E in H; [|discriminate]. injection H as <-.
  rewrite zlen_le_bytes, le_val_bytes. fold m. rewrite Z.mod_mod by lia.
  destruct sgn; cbn [andb] in *.
  - destruct (Z.ltb_spec v 0) as [Hn|Hp].
    + rewrite <- (Z_mod_plus_full v 1 m), Z.mod_small by lia.
      replace (m / 2 <=? v + 1 * m) with true by lia. lia.
    + rewrite Z.mod_small by lia. replace (m / 2 <=? v) with false by lia. reflexivity.
  - apply Z.mod_small; lia.
Qed.
Lemma pack_int_len sgn w v bs : pack_int sgn w v = Ok bs -> zlen bs = Z.of_nat w.
Proof.
  unfold pack_int. destruct (_ && _); [|discriminate]. intros H; injection H as <-. apply zlen_le_bytes.
Qed.
Lemma pack_int_byte sgn w v bs : pack_int sgn w v = Ok bs -> Forall (fun b => (b < 256)%N) bs.
Proof.
  unfold pack_int. destruct (_ && _); [|discriminate]. intros H; injection H as <-. apply le_bytes_byte.
Qed.
