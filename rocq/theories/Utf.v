(** UTF-16 and UTF-8 codecs (Python standard library behaviour). *)
From Verif Require Import PyBase.
Open Scope N_scope.

Definition is_surrogate (c : N) : bool := (55296 <=? c) && (c <=? 57343).
(** Unicode scalar value *)
Definition scalar (c : N) : Prop := c < 1114112 /\ is_surrogate c = false.
Definition scalarb (c : N) : bool := (c <? 1114112) && negb (is_surrogate c).

(** ** UTF-16 *)
Definition utf16_units (c : N) : list N :=
  if c <? 65536 then [c] else [55296 + (c - 65536) / 1024; 56320 + (c - 65536) mod 1024].
Definition unit_le (x : N) : list N := [x mod 256; x / 256].

(** s.encode('utf-16-le'): surrogates are not encodable *)
Definition utf16le_encode (s : list N) : res (list N) :=
  if forallb (fun c => negb (is_surrogate c)) s
  then Ok (flat_map unit_le (flat_map utf16_units s)) else Err UnicodeEncodeError.

Fixpoint units_of (be : bool) (bs : list N) : res (list N) :=
  match bs with
  | [] => Ok []
  | [_] => Err UnicodeDecodeError
  | a :: b :: t => r <- units_of be t ;; Ok ((if be then a * 256 + b else a + b * 256) :: r)
  end.
Fixpoint utf16_chars (us : list N) : res (list N) :=
  match us with
  | [] => Ok []
  | x :: t =>
    if is_surrogate x then
      match t with
      | y :: t2 =>
        if (x <? 56320) && (56320 <=? y) && (y <=? 57343)
        then r <- utf16_chars t2 ;; Ok (65536 + (x - 55296) * 1024 + (y - 56320) :: r)
        else Err UnicodeDecodeError
      | [] => Err UnicodeDecodeError
      end
    else r <- utf16_chars t ;; Ok (x :: r)
  end.
(** b.decode('utf-16'): a byte order mark selects the byte order and is dropped,
    otherwise little-endian (the native order on the supported platforms) *)
Definition utf16_decode (bs : list N) : res (list N) :=
  match bs with
  | 255 :: 254 :: t => r <- units_of false t ;; utf16_chars r
  | 254 :: 255 :: t => r <- units_of true t ;; utf16_chars r
  | _ => r <- units_of false bs ;; utf16_chars r
  end.

Lemma units_of_le us : Forall (fun x => x < 65536) us ->
  units_of false (flat_map unit_le us) = Ok us.
Proof.
  induction us as [|x us IH]; intros H; [reflexivity|].
  inversion H; subst. cbn [flat_map unit_le app units_of]. rewrite IH by assumption. cbn [bind].
  do 2 f_equal. lia.
Qed.
Lemma utf16_units_small c : scalar c -> Forall (fun x => x < 65536) (utf16_units c).
Proof.
  intros [H1 H2]. unfold utf16_units. destruct (c <? 65536) eqn:E; repeat constructor; lia.
Qed.
Lemma utf16_chars_units s : Forall scalar s -> utf16_chars (flat_map utf16_units s) = Ok s.
Proof.
  induction s as [|c s IH]; intros H; [reflexivity|]. inversion H as [|? ? [Hc1 Hc2] Hs]; subst.
  cbn [flat_map]. unfold utf16_units at 1. destruct (c <? 65536) eqn:E; cbn [app utf16_chars].
  - rewrite Hc2, IH by assumption. reflexivity.
  - set (hi := 55296 + (c - 65536) / 1024). set (lo := 56320 + (c - 65536) mod 1024).
    assert (Hhi : is_surrogate hi = true) by (unfold is_surrogate, hi; lia).
    rewrite Hhi. replace ((hi <? 56320) && (56320 <=? lo) && (lo <=? 57343)) with true by (unfold hi, lo; lia).
    rewrite IH by assumption. cbn [bind]. do 2 f_equal. unfold hi, lo. lia.
Qed.

(** the first UTF-16 unit pair of a string is not a byte order mark *)
Definition no_bom (s : list N) : Prop :=
  match s with [] => True | c :: _ => c <> 65279 /\ c <> 65534 end.

Lemma utf16_decode_nobom a b t :
  ~ (a = 255 /\ b = 254) -> ~ (a = 254 /\ b = 255) ->
  utf16_decode (a :: b :: t) = (r <- units_of false (a :: b :: t) ;; utf16_chars r).
Proof.
  intros H1 H2. unfold utf16_decode.
  destruct (N.eq_dec a 255) as [->|Ha].
  - destruct (N.eq_dec b 254) as [->|Hb]; [tauto|].
    destruct b as [|p]; [reflexivity|].
    do 8 (destruct p as [p|p|]; try reflexivity; try (exfalso; apply Hb; reflexivity)).
  - destruct (N.eq_dec a 254) as [->|Ha2].
    + destruct (N.eq_dec b 255) as [->|Hb]; [tauto|].
      destruct b as [|p]; [reflexivity|].
      do 8 (destruct p as [p|p|]; try reflexivity; try (exfalso; apply Hb; reflexivity)).
    + destruct a as [|p]; [reflexivity|].
      do 8 (destruct p as [p|p|]; try reflexivity; try (exfalso; apply Ha; reflexivity); try (exfalso; apply Ha2; reflexivity)).
Qed.

Lemma flat_map_unit_le_units s : Forall scalar s -> Forall (fun x => x < 65536) (flat_map utf16_units s).
Proof.
  intros H; induction H; cbn; [constructor|]. apply Forall_app; split; [apply utf16_units_small; auto|auto].
Qed.

(** round trip of a string followed by NUL padding *)
Lemma utf16_roundtrip s : Forall scalar s -> no_bom s ->
  exists bs, utf16le_encode s = Ok bs /\ utf16_decode bs = Ok s.
Proof.
  intros Hs Hb. unfold utf16le_encode.
  replace (forallb (fun c => negb (is_surrogate c)) s) with true.
  2: { symmetry; apply forallb_forall. intros c Hc. rewrite Forall_forall in Hs.
       destruct (Hs c Hc) as [_ ->]; reflexivity. }
  eexists; split; [reflexivity|].
  assert (Hdec : (r <- units_of false (flat_map unit_le (flat_map utf16_units s)) ;; utf16_chars r) = Ok s).
  { rewrite units_of_le by (apply flat_map_unit_le_units; exact Hs). cbn [bind]. apply utf16_chars_units; exact Hs. }
  destruct s as [|c s]; [reflexivity|].
  inversion Hs as [|? ? [Hc1 Hc2] Hs']; subst. destruct Hb as [Hb1 Hb2].
  revert Hdec. cbn [flat_map]. unfold utf16_units at 1 3.
  destruct (c <? 65536) eqn:E; cbn [app flat_map unit_le]; intros Hdec.
  - rewrite utf16_decode_nobom; [exact Hdec|lia|lia].
  - rewrite utf16_decode_nobom; [exact Hdec|lia|lia].
Qed.

(** ** UTF-8 *)
Definition utf8_char (c : N) : list N :=
  if c <? 128 then [c]
  else if c <? 2048 then [192 + c / 64; 128 + c mod 64]
  else if c <? 65536 then [224 + c / 4096; 128 + (c / 64) mod 64; 128 + c mod 64]
  else [240 + c / 262144; 128 + (c / 4096) mod 64; 128 + (c / 64) mod 64; 128 + c mod 64].
(** s.encode('utf-8') *)
Definition utf8_encode (s : list N) : res (list N) :=
  if forallb (fun c => negb (is_surrogate c)) s then Ok (flat_map utf8_char s) else Err UnicodeEncodeError.

Definition cont (b : N) : bool := (128 <=? b) && (b <? 192).
(** strict UTF-8 decoding: overlong forms, surrogates and values above U+10FFFF are errors *)
Fixpoint utf8_decode (bs : list N) : res (list N) :=
  match bs with
  | [] => Ok []
  | a :: t =>
    if a <? 128 then r <- utf8_decode t ;; Ok (a :: r)
    else if (194 <=? a) && (a <? 224) then
      match t with
      | b :: t2 => if cont b then r <- utf8_decode t2 ;; Ok ((a - 192) * 64 + (b - 128) :: r)
                   else Err UnicodeDecodeError
      | [] => Err UnicodeDecodeError
      end
    else if (224 <=? a) && (a <? 240) then
      match t with
      | b :: c :: t3 =>
        let v := (a - 224) * 4096 + (b - 128) * 64 + (c - 128) in
        if cont b && cont c && (2048 <=? v) && negb (is_surrogate v)
        then r <- utf8_decode t3 ;; Ok (v :: r) else Err UnicodeDecodeError
      | _ => Err UnicodeDecodeError
      end
    else if (240 <=? a) && (a <? 245) then
      match t with
      | b :: c :: d :: t4 =>
        let v := (a - 240) * 262144 + (b - 128) * 4096 + (c - 128) * 64 + (d - 128) in
        if cont b && cont c && cont d && (65536 <=? v) && (v <? 1114112)
        then r <- utf8_decode t4 ;; Ok (v :: r) else Err UnicodeDecodeError
      | _ => Err UnicodeDecodeError
      end
    else Err UnicodeDecodeError
  end.

Lemma utf8_decode_char c rest : scalar c ->
  utf8_decode (utf8_char c ++ rest) = (r <- utf8_decode rest ;; Ok (c :: r)).
Proof.
  intros [H1 H2]. unfold utf8_char.
  destruct (c <? 128) eqn:E1.
  { cbn [app utf8_decode]. rewrite E1. reflexivity. }
  destruct (c <? 2048) eqn:E2.
  { cbn [app utf8_decode].
    replace (192 + c / 64 <? 128) with false by lia.
    replace ((194 <=? 192 + c / 64) && (192 + c / 64 <? 224)) with true by lia.
    replace (cont (128 + c mod 64)) with true by (unfold cont; lia).
    replace ((192 + c / 64 - 192) * 64 + (128 + c mod 64 - 128)) with c by lia. reflexivity. }
  destruct (c <? 65536) eqn:E3.
  { cbn [app utf8_decode].
    set (a := 224 + c / 4096). set (b := 128 + (c / 64) mod 64). set (d := 128 + c mod 64).
    replace (a <? 128) with false by (unfold a; lia).
    replace ((194 <=? a) && (a <? 224)) with false by (unfold a; lia).
    replace ((224 <=? a) && (a <? 240)) with true by (unfold a; lia).
    cbv zeta. replace ((a - 224) * 4096 + (b - 128) * 64 + (d - 128)) with c.
    2: { unfold a, b, d. pose proof (N.div_div c 64 64). lia. }
    rewrite H2. replace (cont b && cont d && (2048 <=? c) && negb false) with true by (unfold cont, b, d; lia).
    reflexivity. }
  { cbn [app utf8_decode].
    set (a := 240 + c / 262144). set (b := 128 + (c / 4096) mod 64). set (d := 128 + (c / 64) mod 64). set (e := 128 + c mod 64).
    replace (a <? 128) with false by (unfold a; lia).
    replace ((194 <=? a) && (a <? 224)) with false by (unfold a; lia).
    replace ((224 <=? a) && (a <? 240)) with false by (unfold a; lia).
    replace ((240 <=? a) && (a <? 245)) with true by (unfold a; lia).
    cbv zeta. replace ((a - 240) * 262144 + (b - 128) * 4096 + (d - 128) * 64 + (e - 128)) with c.
    2: { unfold a, b, d, e. lia. }
    replace (cont b && cont d && cont e && (65536 <=? c) && (c <? 1114112)) with true by (unfold cont, b, d, e; lia).
    reflexivity. }
Qed.

Lemma utf8_roundtrip s : Forall scalar s ->
  exists bs, utf8_encode s = Ok bs /\ utf8_decode bs = Ok s.
Proof.
  intros Hs. unfold utf8_encode.
  replace (forallb (fun c => negb (is_surrogate c)) s) with true.
  2: { symmetry; apply forallb_forall. intros c Hc. rewrite Forall_forall in Hs.
       destruct (Hs c Hc) as [_ ->]; reflexivity. }
  eexists; split; [reflexivity|].
  induction Hs as [|c s Hc Hs IH]; [reflexivity|].
  cbn [flat_map]. rewrite utf8_decode_char by exact Hc. rewrite IH. reflexivity.
Qed.

(** 'utf-8-sig': a byte order mark is written first, and dropped on reading if present *)
Definition utf8_bom : list N := [239; 187; 191].
Definition utf8sig_encode (s : list N) : res (list N) := r <- utf8_encode s ;; Ok (utf8_bom ++ r).
Definition utf8sig_decode (bs : list N) : res (list N) :=
  utf8_decode (if starts utf8_bom bs then skipn 3 bs else bs).

Lemma utf8sig_roundtrip s : Forall scalar s ->
  exists bs, utf8sig_encode s = Ok bs /\ utf8sig_decode bs = Ok s.
Proof.
  intros Hs. destruct (utf8_roundtrip s Hs) as (bs & H1 & H2).
  exists (utf8_bom ++ bs). unfold utf8sig_encode, utf8sig_decode. rewrite H1. split; [reflexivity|].
  rewrite starts_app. exact H2.
Qed.
