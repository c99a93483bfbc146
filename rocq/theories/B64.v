(** base64.b64encode and base64.b64decode (validate=False) of the Python standard library
    (binascii.b2a_base64, a2b_base64 in the lax mode); models nothing of /repo. *)
From Verif Require Import PyBase PyB64.
Open Scope list_scope.
Open Scope N_scope.

Definition b64_char (v : N) : N :=
  if v <? 26 then 65 + v else if v <? 52 then 71 + v else if v <? 62 then v - 4 else if v =? 62 then 43 else 47.
Definition b64_value (c : N) : option N :=
  if (65 <=? c) && (c <=? 90) then Some (c - 65)
  else if (97 <=? c) && (c <=? 122) then Some (c - 71)
  else if (48 <=? c) && (c <=? 57) then Some (c + 4)
  else if c =? 43 then Some 62 else if c =? 47 then Some 63 else None.

Fixpoint b64_encode (bs : list N) : list N :=
  match bs with
  | [] => []
  | [a] => [b64_char (a / 4); b64_char (a mod 4 * 16); b64_pad; b64_pad]
  | [a; b] => [b64_char (a / 4); b64_char (a mod 4 * 16 + b / 16); b64_char (b mod 16 * 4); b64_pad]
  | a :: b :: c :: t =>
    b64_char (a / 4) :: b64_char (a mod 4 * 16 + b / 16) :: b64_char (b mod 16 * 4 + c / 64) :: b64_char (c mod 64) :: b64_encode t
  end.

(** [quad]: position in the current group of four; [left]: the bits left over from the character
    before; [pads]: padding characters seen in this group *)
Fixpoint b64_dec (quad left pads : N) (s : list N) : res (list N) :=
  match s with
  | [] => if quad =? 0 then Ok [] else Err ValueError
  | c :: t =>
    if c =? b64_pad then
      if 2 <=? quad then (if 4 <=? quad + (pads + 1) then Ok [] else b64_dec quad left (pads + 1) t)
      else b64_dec quad left pads t
    else match b64_value c with
         | None => b64_dec quad left pads t
         | Some v =>
           if quad =? 0 then b64_dec 1 v 0 t
           else if quad =? 1 then r <- b64_dec 2 (v mod 16) 0 t ;; Ok (left * 4 + v / 16 :: r)
           else if quad =? 2 then r <- b64_dec 3 (v mod 4) 0 t ;; Ok (left * 16 + v / 4 :: r)
           else r <- b64_dec 0 0 0 t ;; Ok (left * 64 + v :: r)
         end
  end.
Definition b64_decode (s : list N) : res (list N) :=
  if forallb (fun c => c <? 128) s then b64_dec 0 0 0 s else Err ValueError.

(** ** Laws *)
Lemma b64_value_alpha c : b64_alpha c = match b64_value c with Some _ => true | None => false end.
Proof.
  unfold b64_alpha, b64_value. destruct ((65 <=? c) && (c <=? 90)); [reflexivity|]. destruct ((97 <=? c) && (c <=? 122)); [reflexivity|].
  destruct ((48 <=? c) && (c <=? 57)); [reflexivity|]. destruct (c =? 43); [reflexivity|]. destruct (c =? 47); reflexivity.
Qed.
Lemma b64_go_dec : forall s quad left pads, quad < 4 -> b64_go quad pads s = match b64_dec quad left pads s with Ok _ => true | Err _ => false end.
Proof.
  induction s as [|c s IH]; intros quad left pads Hq; cbn [b64_go b64_dec]; [destruct (quad =? 0); reflexivity|].
  destruct (c =? b64_pad).
  - destruct (2 <=? quad); [|apply IH; exact Hq]. destruct (4 <=? quad + (pads + 1)); [reflexivity|apply IH; exact Hq].
  - rewrite b64_value_alpha. destruct (b64_value c) as [v|]; [|apply IH; exact Hq].
    destruct (N.eqb_spec quad 0) as [->|H0]; [apply IH; reflexivity|].
    destruct (N.eqb_spec quad 1) as [->|H1]; [rewrite (IH ((1 + 1) mod 4) (v mod 16)) by reflexivity; change ((1 + 1) mod 4) with 2; destruct (b64_dec 2 (v mod 16) 0 s); reflexivity|].
    destruct (N.eqb_spec quad 2) as [->|H2]; [rewrite (IH ((2 + 1) mod 4) (v mod 4)) by reflexivity; change ((2 + 1) mod 4) with 3; destruct (b64_dec 3 (v mod 4) 0 s); reflexivity|].
    assert (quad = 3) as -> by lia. rewrite (IH ((3 + 1) mod 4) 0) by reflexivity. change ((3 + 1) mod 4) with 0. destruct (b64_dec 0 0 0 s); reflexivity.
Qed.
(** the test used by the brace writer is exactly whether decoding succeeds *)
Lemma b64_accepts_decode s : b64_accepts s = true <-> exists b, b64_decode s = Ok b.
Proof.
  unfold b64_accepts, b64_decode. destruct (forallb (fun c => c <? 128) s); cbn [andb]; [|split; [discriminate|intros [b H]; discriminate]].
  rewrite (b64_go_dec s 0 0 0) by reflexivity. destruct (b64_dec 0 0 0 s) as [b|]; split; try discriminate; eauto. intros [b H]; discriminate.
Qed.

Definition b64c (c : N) : Prop := b64_alpha c = true \/ c = b64_pad.
Lemma b64_char_facts v : v < 64 -> b64_value (b64_char v) = Some v /\ (b64_char v =? b64_pad) = false /\ b64_char v < 128.
Proof.
  intros H.
  assert (K : forallb (fun n => match b64_value (b64_char n) with Some x => x =? n | None => false end && negb (b64_char n =? b64_pad) && (b64_char n <? 128)) (map N.of_nat (seq 0 64)) = true) by (vm_compute; reflexivity).
  rewrite forallb_forall in K. specialize (K v). cbv beta in K.
  assert (Hin : In v (map N.of_nat (seq 0 64))).
  { apply in_map_iff. exists (N.to_nat v). split; [lia|]. apply in_seq. lia. }
  apply K in Hin. apply andb_true_iff in Hin. destruct Hin as [Hin H3]. apply andb_true_iff in Hin. destruct Hin as [H1 H2].
  split; [|split; [apply negb_true_iff; exact H2|lia]].
  destruct (b64_value (b64_char v)) as [x|]; [|discriminate]. f_equal. lia.
Qed.
Lemma b64_char_alpha v : v < 64 -> b64c (b64_char v).
Proof. intros H. left. rewrite b64_value_alpha. destruct (b64_char_facts v H) as [-> _]. reflexivity. Qed.

Lemma triple_ind (P : list N -> Prop) : P [] -> (forall a, P [a]) -> (forall a b, P [a; b]) ->
  (forall a b c t, P t -> P (a :: b :: c :: t)) -> forall l, P l.
Proof.
  intros H0 H1 H2 H3. fix IH 1. intros [|a [|b [|c t]]]; [exact H0|apply H1|apply H2|]. apply H3, IH.
Qed.
Definition bytes (bs : list N) : Prop := Forall (fun b => b < 256) bs.

Lemma b64_dec_step0 v t pads : v < 64 -> b64_dec 0 0 pads (b64_char v :: t) = b64_dec 1 v 0 t.
Proof. intros H. destruct (b64_char_facts v H) as (E1 & E2 & _). cbn [b64_dec]. rewrite E2, E1. reflexivity. Qed.
Lemma b64_dec_step1 v left t pads : v < 64 -> b64_dec 1 left pads (b64_char v :: t) = (r <- b64_dec 2 (v mod 16) 0 t ;; Ok (left * 4 + v / 16 :: r)).
Proof. intros H. destruct (b64_char_facts v H) as (E1 & E2 & _). cbn [b64_dec]. rewrite E2, E1. reflexivity. Qed.
Lemma b64_dec_step2 v left t pads : v < 64 -> b64_dec 2 left pads (b64_char v :: t) = (r <- b64_dec 3 (v mod 4) 0 t ;; Ok (left * 16 + v / 4 :: r)).
Proof. intros H. destruct (b64_char_facts v H) as (E1 & E2 & _). cbn [b64_dec]. rewrite E2, E1. reflexivity. Qed.
Lemma b64_dec_step3 v left t pads : v < 64 -> b64_dec 3 left pads (b64_char v :: t) = (r <- b64_dec 0 0 0 t ;; Ok (left * 64 + v :: r)).
Proof. intros H. destruct (b64_char_facts v H) as (E1 & E2 & _). cbn [b64_dec]. rewrite E2, E1. reflexivity. Qed.

Lemma b64_encode_chars : forall bs, bytes bs -> Forall b64c (b64_encode bs).
Proof.
  apply (triple_ind (fun bs => bytes bs -> Forall b64c (b64_encode bs))); unfold bytes; cbn [b64_encode].
  - constructor.
  - intros a H. inversion H; subst. repeat apply Forall_cons; try (right; reflexivity); try apply b64_char_alpha; try lia. constructor.
  - intros a b H. inversion H as [|? ? Ha H']; subst. inversion H' as [|? ? Hb _]; subst.
    repeat apply Forall_cons; try (right; reflexivity); try apply b64_char_alpha; try lia. constructor.
  - intros a b c t IH H. inversion H as [|? ? Ha H']; subst. inversion H' as [|? ? Hb H'']; subst. inversion H'' as [|? ? Hc Ht]; subst.
    apply Forall_cons; [apply b64_char_alpha; lia|]. apply Forall_cons; [apply b64_char_alpha; lia|]. apply Forall_cons; [apply b64_char_alpha; lia|].
    apply Forall_cons; [apply b64_char_alpha; lia|]. apply IH. exact Ht.
Qed.
Lemma b64c_ascii c : b64c c -> c < 128.
Proof. unfold b64c, b64_alpha, b64_pad. intros H. lia. Qed.
Lemma b64_dec_encode : forall bs, bytes bs -> b64_dec 0 0 0 (b64_encode bs) = Ok bs.
Proof.
  apply (triple_ind (fun bs => bytes bs -> b64_dec 0 0 0 (b64_encode bs) = Ok bs)); unfold bytes; cbn [b64_encode].
  - reflexivity.
  - intros a H. inversion H; subst. rewrite b64_dec_step0 by lia. rewrite b64_dec_step1 by lia.
    cbn [b64_dec]. change (b64_pad =? b64_pad) with true. cbn. f_equal. f_equal. lia.
  - intros a b H. inversion H as [|? ? Ha H']; subst. inversion H' as [|? ? Hb _]; subst.
    rewrite b64_dec_step0 by lia. rewrite b64_dec_step1 by lia. rewrite b64_dec_step2 by lia.
    cbn [b64_dec]. change (b64_pad =? b64_pad) with true. cbn [bind]. change (2 <=? 3) with true. change (4 <=? 3 + (0 + 1)) with true. cbn match. cbn [bind].
    assert (E1 : a / 4 * 4 + (a mod 4 * 16 + b / 16) / 16 = a) by lia. assert (E2 : (a mod 4 * 16 + b / 16) mod 16 * 16 + b mod 16 * 4 / 4 = b) by lia. rewrite E1, E2. reflexivity.
  - intros a b c t IH H. inversion H as [|? ? Ha H']; subst. inversion H' as [|? ? Hb H'']; subst. inversion H'' as [|? ? Hc Ht]; subst.
    rewrite b64_dec_step0 by lia. rewrite b64_dec_step1 by lia. rewrite b64_dec_step2 by lia. rewrite b64_dec_step3 by lia.
    rewrite (IH Ht). cbn [bind]. f_equal. f_equal; [lia|]. f_equal; [lia|]. f_equal. lia.
Qed.
Theorem b64_roundtrip bs : bytes bs -> b64_decode (b64_encode bs) = Ok bs.
Proof.
  intros H. unfold b64_decode. replace (forallb (fun c => c <? 128) (b64_encode bs)) with true; [apply b64_dec_encode; exact H|].
  symmetry. apply forallb_forall. intros c Hc. pose proof (b64_encode_chars bs H) as K. rewrite Forall_forall in K. apply K in Hc. apply b64c_ascii in Hc. lia.
Qed.
Lemma b64_encode_nil bs : b64_encode bs = [] -> bs = [].
Proof. destruct bs as [|a [|b [|c t]]]; cbn; [reflexivity|discriminate|discriminate|discriminate]. Qed.
Lemma b64_encode_len bs : length (b64_encode bs) = (4 * ((length bs + 2) / 3))%nat.
Proof.
  revert bs. apply triple_ind; [reflexivity|reflexivity|reflexivity|].
  intros a b c t IH. cbn [b64_encode length]. rewrite IH. replace (S (S (S (length t))) + 2)%nat with (length t + 2 + 1 * 3)%nat by lia.
  rewrite Nat.div_add by discriminate. lia.
Qed.
(** what the decoder yields are bytes *)
Lemma b64_value_lt c v : b64_value c = Some v -> v < 64.
Proof.
  unfold b64_value. destruct ((65 <=? c) && (c <=? 90)) eqn:E1; [intros H; assert (v = c - 65) as -> by congruence; lia|].
  destruct ((97 <=? c) && (c <=? 122)) eqn:E2; [intros H; assert (v = c - 71) as -> by congruence; lia|].
  destruct ((48 <=? c) && (c <=? 57)) eqn:E3; [intros H; assert (v = c + 4) as -> by congruence; lia|].
  destruct (c =? 43); [intros H; assert (v = 62) as -> by congruence; lia|].
  destruct (c =? 47); [intros H; assert (v = 63) as -> by congruence; lia|discriminate].
Qed.
