(** Model and proofs: file time stamps (container.py:142-156, container_doc.py:189-203). *)
From Verif Require Import PyBase.
Open Scope Z_scope.

(** A datetime is the number of microseconds since 0001-01-01 00:00:00 (naive local time).
    datetime.max is 9999-12-31 23:59:59.999999: 3652059 days of 86400000000
    microseconds, minus one microsecond. *)
Definition day_us : Z := 86400000000.
Definition datetime_max : Z := 315537897599999999.
(** datetime(9999, 12, 31, 23, 59, 59) *)
Definition datetime_last_second : Z := 315537897599000000.
(** timedelta.max.days = 999999999: larger intervals raise OverflowError *)
Definition timedelta_ok (us : Z) : bool := Z.abs us / day_us <=? 999999999.

(** container_doc.py:189-203 epoch2int, from the local datetime that
    datetime.fromtimestamp gives: (dt - datetime(1,1,1)) // timedelta(microseconds=100) *)
Definition epoch2int (dt : Z) : Z := dt / 100.

(** container.py:142-156 parse_datetime: datetime(1,1,1) + timedelta(microseconds=time*100);
    OverflowError (interval or result out of range) gives the last second of 9999 *)
Definition parse_datetime (time : Z) : Z :=
  let us := time * 100 in
  if timedelta_ok us && (0 <=? us) && (us <=? datetime_max) then us else datetime_last_second.

Lemma timedelta_in us : 0 <= us <= datetime_max -> timedelta_ok us = true.
Proof.
  intros [H1 H2]. unfold timedelta_ok. rewrite Z.abs_eq by exact H1.
  apply Z.leb_le. apply Z.div_le_upper_bound; [reflexivity|].
  eapply Z.le_trans; [exact H2|]. discriminate.
Qed.
Lemma parse_in t : 0 <= t -> t * 100 <= datetime_max -> parse_datetime t = t * 100.
Proof.
  intros H1 H2. unfold parse_datetime. rewrite timedelta_in by lia.
  replace ((0 <=? t * 100) && (t * 100 <=? datetime_max)) with true by lia.
  replace (true && (0 <=? t * 100) && (t * 100 <=? datetime_max)) with true by lia. reflexivity.
Qed.
Lemma stamp_roundtrip dt : 0 <= dt <= datetime_max ->
  parse_datetime (epoch2int dt) <= dt < parse_datetime (epoch2int dt) + 100.
Proof.
  intros H. unfold epoch2int.
  pose proof (Z.div_mod dt 100 ltac:(lia)). pose proof (Z.mod_pos_bound dt 100 ltac:(lia)).
  rewrite parse_in; lia.
Qed.
Lemma stamp_unsigned dt : 0 <= dt <= datetime_max -> 0 <= epoch2int dt < 2 ^ 64.
Proof.
  intros [H1 H2]. unfold epoch2int. split; [apply Z.div_pos; [exact H1|reflexivity]|].
  apply Z.div_lt_upper_bound; [reflexivity|]. eapply Z.le_lt_trans; [exact H2|]. reflexivity.
Qed.
Lemma stamp_mono a b : a <= b -> epoch2int a <= epoch2int b.
Proof. intros. apply Z.div_le_mono; lia. Qed.
Lemma parse_mono s t : 0 <= s -> s <= t -> t * 100 <= datetime_max -> parse_datetime s <= parse_datetime t.
Proof. intros. rewrite !parse_in by lia. lia. Qed.
Lemma parse_out t : datetime_max < t * 100 -> parse_datetime t = datetime_last_second.
Proof.
  intros H. unfold parse_datetime. replace (t * 100 <=? datetime_max) with false by lia.
  rewrite andb_false_r. reflexivity.
Qed.
Lemma encode_parse t : 0 <= t -> t * 100 <= datetime_max -> epoch2int (parse_datetime t) = t.
Proof. intros. rewrite parse_in by lia. unfold epoch2int. apply Z.div_mul. lia. Qed.
(** two different stamps can decode to the same date only outside the calendar, and the
    last second of 9999 decodes above the overflow value: the decoder is not monotone there *)
Lemma parse_not_mono : exists s t, 0 <= s /\ s <= t /\ parse_datetime t < parse_datetime s.
Proof. exists (datetime_max / 100), (datetime_max / 100 + 1). vm_compute. repeat split; discriminate. Qed.
