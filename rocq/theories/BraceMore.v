(** Byte level, injectivity, folding facts, cut files, text files. *)
From Verif Require Import PyBase PyText PyB64 Utf Brace Spec_Brace BraceProofs BraceSim BraceMain BraceFile.
Set Implicit Arguments.
Open Scope list_scope.
Open Scope N_scope.

(** ** characters of the encoded text *)
Lemma in_fold_b64 nl c elem : forall fuel j, In c (fold_b64 nl fuel elem j) -> In c nl \/ In c elem.
Proof.
  induction fuel as [|k IH]; intros j; cbn [fold_b64]; [intros []|].
  destruct (Nat.leb j (length elem)); [|intros []]. intros H. apply in_app_or in H. destruct H as [H|H]; [auto|].
  apply in_app_or in H. destruct H as [H|H]; [|eauto].
  right. rewrite <- (firstn_skipn j elem). apply in_or_app; right.
  rewrite <- (firstn_skipn 64 (skipn j elem)). apply in_or_app; left; exact H.
Qed.
Lemma in_fold_long nl c : forall fuel elem, In c (fold_long nl fuel elem) -> In c nl \/ In c elem.
Proof.
  induction fuel as [|k IH]; intros elem; cbn [fold_long]; [intros []|].
  destruct (Nat.ltb 64 (length elem)); [|auto]. intros H. apply in_app_or in H. destruct H as [H|H].
  - right. rewrite <- (firstn_skipn 64 elem). apply in_or_app; auto.
  - apply in_app_or in H. destruct H as [H|H]; [auto|]. apply IH in H. destruct H as [H|H]; [auto|].
    right. rewrite <- (firstn_skipn 64 elem). apply in_or_app; auto.
Qed.
Lemma in_enc_str nl c s : In c (enc_str nl s) -> In c nl \/ In c s.
Proof.
  unfold enc_str. destruct (starts p_base64 s).
  - intros H. apply in_app_or in H. destruct H as [H|H]; [|eapply in_fold_b64; exact H].
    right. rewrite <- (firstn_skipn 72 s). apply in_or_app; auto.
  - destruct (starts pp_base64 s).
    + intros H. right. rewrite <- (firstn_skipn 1 s). apply in_or_app; auto.
    + destruct (_ && _); [apply in_fold_long|auto].
Qed.

Section ValInd.
  Variable P : val -> Prop.
  Hypothesis Hn : P VNone.
  Hypothesis Hs : forall s, P (VStr s).
  Hypothesis Hl : forall l, Forall P l -> P (VList l).
  Fixpoint val_ind2 (v : val) : P v :=
    match v with
    | VNone => Hn
    | VStr s => Hs s
    | VList l => Hl ((fix go l : Forall P l := match l with [] => Forall_nil _ | x :: t => Forall_cons _ (val_ind2 x) (go t) end) l)
    end.
End ValInd.

Definition mark (nl : list N) (c : N) : Prop := In c [COMMA; LF; OPEN; CLOSE] \/ In c nl.
Lemma in_enc_elems nl c l : Forall (fun v => In c (enc_val nl v) -> mark nl c \/ In c (concat (leaves v))) l ->
  In c (enc_elems nl l) -> mark nl c \/ In c (concat (flat_map leaves l)).
Proof.
  induction 1 as [|v l Hv Hl IH]; [intros []|]. rewrite enc_elems_cons. cbn [flat_map]. rewrite concat_app.
  intros H. apply in_app_or in H. destruct H as [H|H].
  - apply Hv in H. rewrite in_app_iff. tauto.
  - rewrite in_app_iff. destruct l as [|w l].
    + destruct (is_list v); [destruct H as [<-|[]]; left; left; cbn; auto|destruct H].
    + destruct H as [<-|H]; [left; left; cbn; auto|]. apply IH in H. tauto.
Qed.
Lemma in_enc_val nl c v : In c (enc_val nl v) -> mark nl c \/ In c (concat (leaves v)).
Proof.
  induction v as [|s|l IH] using val_ind2.
  - intros [].
  - cbn [enc_val leaves]. intros H. apply in_enc_str in H. cbn. rewrite app_nil_r. unfold mark. tauto.
  - rewrite enc_val_list. intros [<-|[<-|H]]; [left; left; cbn; auto|left; left; cbn; auto|].
    apply in_app_or in H. destruct H as [H|[<-|[]]]; [|left; left; cbn; auto].
    cbn [leaves]. eapply in_enc_elems; eassumption.
Qed.
Lemma in_roots_text nl c data : roots_ok data -> In c (roots_text nl data) ->
  mark nl c \/ In c (concat (flat_map leaves data)).
Proof.
  intros Hd. assert (Hobj : forall l, In c (enc_obj nl l) -> mark nl c \/ In c (concat (leaves (VList l)))).
  { intros l H. apply in_enc_val. rewrite enc_val_list. right. exact H. }
  destruct Hd as [|v data (l & -> & _) Hd]; [intros []|]. unfold roots_text. rewrite join_flat.
  cbn [flat_map]. rewrite concat_app. intros H. apply in_app_or in H. destruct H as [H|H].
  - apply Hobj in H. rewrite in_app_iff. tauto.
  - rewrite in_app_iff. enough (mark nl c \/ In c (concat (flat_map leaves data))) by tauto.
    induction Hd as [|v data (l' & -> & _) Hd IH]; [destruct H|]. cbn [flat_map app] in H.
    cbn [flat_map]. rewrite concat_app, in_app_iff.
    destruct H as [<-|[<-|H]]; [left; left; cbn; auto|left; left; cbn; auto|].
    apply in_app_or in H. destruct H as [H|H]; [apply Hobj in H; tauto|apply IH in H; tauto].
Qed.

Lemma mark_scalar c : mark CRLF c -> scalar c.
Proof.
  unfold mark, CRLF. cbn. intros H. unfold COMMA, LF, OPEN, CLOSE, CR in H.
  intuition subst; split; reflexivity.
Qed.

Lemma scalar_write_nl p s : Forall scalar s -> Forall scalar (write_nl p s).
Proof.
  rewrite !Forall_forall. intros H c Hc. unfold write_nl in Hc. apply in_flat_map in Hc. destruct Hc as (d & Hd & Hc).
  destruct (d =? LF).
  - destruct p; cbn in Hc; intuition subst; split; reflexivity.
  - destruct Hc as [<-|[]]; auto.
Qed.

(** C17 *)
Lemma file_roundtrip p cp data old : canonical data -> Forall scalar (concat (flat_map leaves data)) ->
  exists bs, brace_file_write p data old = (Ok tt, bs) /\ brace_file_read cp bs = Ok (DTree data).
Proof.
  intros Hc Hs. destruct (text_roundtrip p Hc) as (raw & Hr & Hd).
  assert (Hraw : raw = roots_text CRLF data).
  { destruct Hc as (_ & H & _). unfold encode_root_object in Hr. rewrite encode_roots in Hr by exact H. congruence. }
  assert (Hsc : Forall scalar raw).
  { rewrite Forall_forall in *. intros c Hin. subst raw. apply in_roots_text in Hin; [|apply Hc].
    destruct Hin as [Hm|Hin]; [apply mark_scalar; exact Hm|auto]. }
  destruct (utf8sig_roundtrip _ (scalar_write_nl p Hsc)) as (bs & H1 & H2).
  exists bs. unfold brace_file_write. rewrite Hr, H1. split; [reflexivity|].
  unfold brace_file_read. rewrite H2. cbv zeta. rewrite Hd. reflexivity.
Qed.

(** C18 *)
Lemma encode_inj a b : canonical a -> canonical b -> encode_root_object a = encode_root_object b -> a = b.
Proof.
  intros Ha Hb H. destruct (text_roundtrip Posix Ha) as (ra & Ha1 & Ha2). destruct (text_roundtrip Posix Hb) as (rb & Hb1 & Hb2).
  rewrite H in Ha1. assert (ra = rb) as -> by congruence. rewrite Ha2 in Hb2. congruence.
Qed.

(** C20 *)
Lemma verbatim s : unfolded s -> encode_root_object [VList [VStr s]] = Ok (OPEN :: s ++ [CLOSE]).
Proof.
  intros (H1 & H2 & H3). unfold encode_root_object. cbn [enc_roots_go enc_root1 bind app].
  unfold enc_obj. rewrite enc_elems_cons. cbn [enc_val is_list]. rewrite app_nil_r.
  unfold enc_str. rewrite H1, H2.
  destruct (Nat.ltb 64 (length s)) eqn:E; [|reflexivity]. apply Nat.ltb_lt in E.
  destruct H3 as [H3|H3]; [lia|]. rewrite H3. reflexivity.
Qed.
Lemma b64_nonascii s c : In c s -> 128 <= c -> b64_accepts s = false.
Proof.
  intros Hin Hc. unfold b64_accepts. replace (forallb (fun c => c <? 128) s) with false; [reflexivity|].
  symmetry. apply not_true_iff_false. rewrite forallb_forall. intros H. apply H in Hin. lia.
Qed.
Lemma broken_verbatim s : starts p_base64 s = false -> starts pp_base64 s = false -> (64 < length s)%nat -> b64_accepts s = true ->
  exists rest, encode_root_object [VList [VStr s]] = Ok (OPEN :: firstn 64 s ++ CRLF ++ rest).
Proof.
  intros H1 H2 H3 H4. unfold encode_root_object. cbn [enc_roots_go enc_root1 bind app].
  unfold enc_obj. rewrite enc_elems_cons. cbn [enc_val is_list]. rewrite app_nil_r.
  unfold enc_str. apply Nat.ltb_lt in H3. rewrite H1, H2, H3, H4. cbn [andb fold_long]. rewrite H3.
  eexists. rewrite <- !app_assoc. reflexivity.
Qed.

(** short '#base64:' payloads *)
Lemma short_payload p x : Forall payload_char x -> (length x < 64)%nat ->
  exists raw, encode_root_object [VList [VStr (p_base64 ++ x)]] = Ok raw /\
  decode_file (univ_nl (write_nl p raw)) = Ok (DTree [VList [VStr (pp_base64 ++ x)]]).
Proof.
  intros Hx Hl.
  assert (He : encode_root_object [VList [VStr (p_base64 ++ x)]] = encode_root_object [VList [VStr (pp_base64 ++ x)]]).
  { unfold encode_root_object. cbn [enc_roots_go enc_root1 bind app]. unfold enc_obj. rewrite !enc_elems_cons.
    cbn [enc_val is_list]. rewrite !app_nil_r.
    replace (enc_str CRLF (pp_base64 ++ x)) with (p_base64 ++ x) by reflexivity.
    replace (enc_str CRLF (p_base64 ++ x)) with (p_base64 ++ x); [reflexivity|].
    unfold enc_str. rewrite starts_app. rewrite firstn_all2 by (rewrite app_length; cbn [length p_base64]; lia).
    cbn [fold_b64]. replace (Nat.leb 72 (length (p_base64 ++ x))) with false; [rewrite app_nil_r; reflexivity|].
    symmetry. apply Nat.leb_gt. rewrite app_length; cbn [length p_base64]; lia. }
  rewrite He. apply text_roundtrip. split; [discriminate|]. split; [|exact I].
  constructor; [|constructor]. eexists. split; [reflexivity|]. apply o_b64. right. split; [apply starts_app|].
  apply Forall_app. split; [|exact Hx]. repeat constructor; unfold payload_char; cbn; intuition discriminate.
Qed.

(** ** C21: files that end inside a string literal *)
Definition inv (s : bst) (q : bool) : Prop :=
  match md s with MParam | MEnd => q = false | MBegin | MMulti => q = true | _ => False end.

Lemma end_value_md s s' : end_value s = Ok s' -> md s' = MParam.
Proof. unfold end_value. destruct (is_pc CLOSE s); [intros H; injection H as <-; reflexivity|]. destruct (stack s); intros H; [discriminate|injection H as <-; reflexivity]. Qed.
Lemma end_object_md s s' : end_object s = Ok s' -> md s' = MParam.
Proof.
  unfold end_object. destruct (end_value s) as [x|] eqn:E; cbn [bind]; [|discriminate]. apply end_value_md in E.
  intros H; injection H as <-. destruct (stack x) as [|t [|p r]]; exact E.
Qed.

Definition lf_last (l : list N) : Prop := forall a b, l = a ++ LF :: b -> b = [].
Lemma lf_last_tail c l : lf_last (c :: l) -> lf_last l.
Proof. intros H a b ->. apply (H (c :: a) b). reflexivity. Qed.

Lemma dobj_inv line : forall rest pre s s' q, line = pre ++ rest -> lf_last rest -> inv s q ->
  dobj line (N.of_nat (length pre)) rest s = Ok s' -> inv s' (xorb q (odd_quotes rest)).
Proof.
  induction rest as [|c t IH]; intros pre s s' q Hline Hlf Hinv H; cbn [dobj odd_quotes] in *.
  - injection H as <-. rewrite xorb_false_r. exact Hinv.
  - assert (Ht := lf_last_tail Hlf). rewrite <- xorb_assoc.
    assert (Hline' : line = (pre ++ [c]) ++ t) by (rewrite Hline, <- app_assoc; reflexivity).
    replace (N.of_nat (length pre) + 1) with (N.of_nat (length (pre ++ [c]))) in H by (rewrite app_length; cbn; lia).
    assert (Hgo : forall x q', inv x q' -> dobj line (N.of_nat (length (pre ++ [c]))) t x = Ok s' -> inv s' (xorb q' (odd_quotes t))).
    { intros x q' Hx Hd. eapply IH; eauto. }
    unfold inv in Hinv. destruct (md s) eqn:Em; try contradiction.
    + subst q. destruct (c =? COMMA) eqn:E1.
      { apply N.eqb_eq in E1; subst c. destruct (end_value s) as [x|] eqn:Ex; cbn [bind] in H; [|discriminate].
        apply end_value_md in Ex. apply (Hgo x false) in H; [exact H|]. unfold inv. rewrite Ex. reflexivity. }
      destruct (c =? CLOSE) eqn:E2.
      { apply N.eqb_eq in E2; subst c. destruct (end_object s) as [x|] eqn:Ex; cbn [bind] in H; [|discriminate].
        apply end_object_md in Ex. apply (Hgo x false) in H; [exact H|]. unfold inv. rewrite Ex. reflexivity. }
      destruct (c =? QUOTE) eqn:E3.
      { destruct (ends multi_tail line && _) eqn:Em2.
        - injection H as <-. unfold inv. cbn [md add_cv set_md].
          apply andb_true_iff in Em2. destruct Em2 as [M1 M2]. apply N.eqb_eq in M2. rewrite Hline, app_length in M2. cbn in M2.
          destruct t as [|x [|y t]]; cbn in M2; try lia.
          replace line with ((pre ++ [c]) ++ [x]) in M1.
          assert (x = LF) as -> by (eapply (@ends_app_last [COMMA; QUOTE]); exact M1). reflexivity.
        - apply (Hgo _ true) in H; [|reflexivity]. exact H. }
      destruct (c =? LF) eqn:E4.
      { injection H as <-. apply N.eqb_eq in E4; subst c. assert (t = []) as -> by (apply (Hlf [] t); reflexivity).
        unfold inv. rewrite Em. reflexivity. }
      apply (Hgo _ false) in H; [exact H|]. unfold inv. cbn. rewrite Em. reflexivity.
    + subst q. destruct (c =? QUOTE) eqn:E3.
      * apply (Hgo _ false) in H; [exact H|]. reflexivity.
      * apply (Hgo _ true) in H; [exact H|]. unfold inv. cbn. rewrite Em. reflexivity.
    + subst q. destruct (c =? QUOTE) eqn:E3.
      { apply (Hgo _ true) in H; [exact H|]. reflexivity. }
      destruct (c =? COMMA) eqn:E1.
      { destruct (end_value s) as [x|] eqn:Ex; cbn [bind] in H; [|discriminate].
        apply end_value_md in Ex. apply (Hgo x false) in H; [exact H|]. unfold inv. rewrite Ex. reflexivity. }
      destruct (c =? CLOSE) eqn:E2.
      { destruct (end_object s) as [x|] eqn:Ex; cbn [bind] in H; [|discriminate].
        apply end_object_md in Ex. apply (Hgo x false) in H; [exact H|]. unfold inv. rewrite Ex. reflexivity. }
      apply (Hgo _ false) in H; [exact H|]. unfold inv. cbn. rewrite Em. reflexivity.
    + discriminate.
Qed.
Lemma decode_object_inv line s s' q : lf_last line -> inv s q -> decode_object line s = Ok s' -> inv s' (xorb q (odd_quotes line)).
Proof. intros H1 H2 H3. eapply (@dobj_inv line line []); eauto. Qed.

Lemma odd_count l : odd_quotes l = Nat.odd (count_ch QUOTE l).
Proof.
  induction l as [|c l IH]; [reflexivity|]. cbn [odd_quotes count_ch]. rewrite IH. destruct (c =? QUOTE); [|apply xorb_false_l].
  rewrite Nat.odd_succ, <- Nat.negb_odd. destruct (Nat.odd _); reflexivity.
Qed.

Definition head_ok (q : bool) (line : list N) : Prop :=
  q = false -> match line with c :: r => c = CLOSE \/ (c = OPEN /\ starts hash_base64 r = false) | [] => False end.

Lemma line_inv line s s' q : lf_last line -> head_ok q line -> inv s q -> decode_line line s = Ok s' ->
  inv s' (xorb q (odd_quotes line)).
Proof.
  intros Hlf Hh Hinv H. unfold decode_line in H. assert (Hi := Hinv). unfold inv in Hinv. destruct (md s) eqn:Em; try contradiction.
  - subst q. specialize (Hh eq_refl). destruct line as [|c r]; [contradiction|].
    unfold line_param in H. destruct Hh as [->|[-> Hs]].
    + change (CLOSE =? OPEN) with false in H. change (CLOSE =? CLOSE) with true in H. cbv iota in H.
      destruct (end_object s) as [x|] eqn:Ex; cbn [bind] in H; [|discriminate]. apply end_object_md in Ex.
      cbn [odd_quotes]. change (CLOSE =? QUOTE) with false. rewrite xorb_false_l.
      eapply decode_object_inv; [eapply lf_last_tail; exact Hlf| |exact H]. unfold inv. rewrite Ex. reflexivity.
    + change (OPEN =? OPEN) with true in H. cbv iota zeta in H.
      change (starts (OPEN :: hash_base64) (OPEN :: r)) with (starts hash_base64 r) in H. rewrite Hs in H.
      cbn [odd_quotes]. change (OPEN =? QUOTE) with false. rewrite xorb_false_l.
      eapply decode_object_inv; [eapply lf_last_tail; exact Hlf| |exact H]. unfold inv. cbn [md]. rewrite Em. reflexivity.
  - subst q. eapply decode_object_inv; eauto.
  - discriminate.
  - subst q. unfold line_multi in H. destruct (negb _) eqn:E.
    + eapply decode_object_inv; [exact Hlf| |exact H]. reflexivity.
    + apply negb_false_iff, Nat.eqb_eq in E. unfold plus_cv in H. destruct (cv s); [|discriminate]. injection H as <-.
      rewrite odd_count, <- E. replace (Nat.odd (count_qq line * 2)) with false.
      2: { symmetry. rewrite <- Nat.negb_even, Nat.even_mul. rewrite orb_true_r. reflexivity. }
      unfold inv. cbn [md set_cv]. rewrite Em. reflexivity.
Qed.

Lemma odd_quotes_app a b : odd_quotes (a ++ b) = xorb (odd_quotes a) (odd_quotes b).
Proof. induction a as [|c a IH]; [cbn [app odd_quotes]; rewrite xorb_false_l; reflexivity|]. cbn [app odd_quotes]. rewrite IH, xorb_assoc. reflexivity. Qed.

Lemma shaped_line l : forall b q rest, ~ In LF l -> shaped b q (l ++ LF :: rest) = true ->
  shaped true (xorb q (odd_quotes l)) rest = true.
Proof.
  induction l as [|c l IH]; intros b q rest Hni H; cbn [app shaped odd_quotes] in *.
  - apply andb_true_iff in H. destruct H as [_ H]. change (LF =? LF) with true in H. change (LF =? QUOTE) with false in H. exact H.
  - apply andb_true_iff in H. destruct H as [_ H]. eapply IH in H; [|intros Hx; apply Hni; right; exact Hx].
    rewrite xorb_assoc in H. exact H.
Qed.

Lemma shaped_head l rest q : shaped true q (l ++ rest) = true -> l <> [] -> head_ok q l.
Proof.
  intros H Hne Hq. subst q. destruct l as [|c r]; [congruence|]. cbn [app shaped] in H.
  apply andb_true_iff in H. destruct H as [H _]. cbn [andb negb] in H. apply orb_true_iff in H. destruct H as [H|H].
  - left. apply N.eqb_eq; exact H.
  - right. apply andb_true_iff in H. destruct H as [H1 H2]. split; [apply N.eqb_eq; exact H1|].
    apply negb_true_iff in H2. destruct (starts hash_base64 r) eqn:E; [|reflexivity].
    apply starts_spec in E. destruct E as [t ->]. rewrite <- app_assoc, starts_app in H2. discriminate.
Qed.

Lemma run_inv n : forall T s s' q, (length T <= n)%nat -> shaped true q T = true -> inv s q -> run_lines (lines T) s = Ok s' ->
  inv s' (xorb q (odd_quotes T)).
Proof.
  induction n as [|n IH]; intros T s s' q Hn Hsh Hinv H.
  - destruct T; [|cbn in Hn; lia]. cbn in H. injection H as <-. cbn. rewrite xorb_false_r. exact Hinv.
  - destruct (in_dec N.eq_dec LF T) as [Hin|Hni].
    + destruct (in_split_first _ _ Hin) as (l & r & -> & Hl).
      rewrite lines_line in H by exact Hl. cbn [run_lines] in H.
      destruct (decode_line (l ++ [LF]) s) as [x|e] eqn:Ex; cbn [wrap_err bind] in H; [|destruct e; discriminate].
      rewrite app_length in Hn. cbn in Hn.
      assert (Hx : inv x (xorb q (odd_quotes (l ++ [LF])))).
      { eapply line_inv; [| |exact Hinv|exact Ex].
        - intros a b Hab. destruct b as [|y b] using rev_ind; [reflexivity|].
          rewrite app_comm_cons, app_assoc in Hab. apply app_inj_tail in Hab. destruct Hab as [Hab _]. subst l.
          exfalso; apply Hl. apply in_or_app; right; left; reflexivity.
        - eapply shaped_head with (rest := r); [|destruct l; discriminate]. rewrite <- app_assoc. exact Hsh. }
      apply IH with (q := xorb q (odd_quotes (l ++ [LF]))) in H; [|lia| |exact Hx].
      * rewrite odd_quotes_app in *. cbn [odd_quotes] in *. change (LF =? QUOTE) with false in *.
        rewrite xorb_false_r in H. cbn [xorb] in H. rewrite ?xorb_false_r, ?xorb_false_l in *. rewrite xorb_assoc in H. exact H.
      * rewrite odd_quotes_app. cbn. rewrite xorb_false_r. eapply shaped_line; eassumption.
    + destruct T as [|c T]; [cbn in H; injection H as <-; cbn; rewrite xorb_false_r; exact Hinv|].
      rewrite lines_first in H by discriminate. rewrite first_line_whole in H by exact Hni. cbn [fst snd lines run_lines] in H.
      destruct (decode_line (c :: T) s) as [x|e] eqn:Ex; cbn [wrap_err bind] in H; [|destruct e; discriminate].
      injection H as <-. eapply line_inv; [| |exact Hinv|exact Ex].
      * intros a b Hab. exfalso; apply Hni. rewrite Hab. apply in_or_app; right; left; reflexivity.
      * apply (@shaped_head (c :: T) [] q); [rewrite app_nil_r; exact Hsh|discriminate].
Qed.

Lemma cut_in_string T : shaped true false T = true -> odd_quotes T = true -> exists e, decode_file T = Err e.
Proof.
  intros H1 H2. unfold decode_file. destruct (run_lines (lines T) init) as [s|e] eqn:E; cbn [bind]; [|eauto].
  apply run_inv with (n := length T) (q := false) in E; [|lia|exact H1|reflexivity].
  rewrite H2 in E. cbn in E. unfold inv in E. unfold finish. destruct (md s); try discriminate; eauto.
Qed.

(** the file of a tree without base64 is well shaped, and so is every prefix of it *)
Lemma shaped_prefix A : forall b q B, shaped b q (A ++ B) = true -> shaped b q A = true.
Proof.
  induction A as [|c A IH]; intros b q B H; [reflexivity|]. cbn [app shaped] in *.
  apply andb_true_iff in H. destruct H as [H1 H2]. apply andb_true_iff. split; [|eapply IH; exact H2].
  destruct (b && negb q); [|reflexivity]. apply orb_true_iff in H1. apply orb_true_iff.
  destruct H1 as [H1|H1]; [left; exact H1|right]. apply andb_true_iff in H1. destruct H1 as [H1 H3].
  rewrite H1. cbn [andb]. apply negb_true_iff in H3. apply negb_true_iff.
  destruct (starts hash_base64 A) eqn:E; [|reflexivity].
  apply starts_spec in E. destruct E as [t ->]. rewrite <- app_assoc, starts_app in H3. discriminate.
Qed.

Lemma shaped_plain x : plain x -> forall R, shaped false false R = true -> shaped false false (x ++ R) = true.
Proof.
  induction 1 as [|c x Hc Hx IH]; intros R HR; [exact HR|]. cbn [app shaped andb].
  destruct (plain_neq Hc) as (_ & _ & Hq & Hl). rewrite Hq, Hl. apply IH; exact HR.
Qed.
Lemma shaped_body body : doubled body -> forall b R, shaped false false R = true -> shaped b true (body ++ QUOTE :: R) = true.
Proof.
  induction 1 as [|c t Hc Hd IH|t Hd IH]; intros b R HR; cbn [app shaped].
  - rewrite andb_false_r. exact HR.
  - rewrite andb_false_r. apply N.eqb_neq in Hc; rewrite Hc. cbn. apply IH; exact HR.
  - rewrite andb_false_r. change (QUOTE =? QUOTE) with true. change (QUOTE =? LF) with false. cbn [xorb andb negb shaped].
    apply IH; exact HR.
Qed.
Lemma shaped_leaf x R : plain x \/ quoted x -> shaped false false R = true -> shaped false false (x ++ R) = true.
Proof.
  intros [H|(b & -> & Hd & _)] HR; [apply shaped_plain; assumption|].
  replace ((QUOTE :: b ++ [QUOTE]) ++ R) with (QUOTE :: b ++ QUOTE :: R) by (cbn; rewrite <- app_assoc; reflexivity).
  cbn [shaped andb]. apply (shaped_body Hd); exact HR.
Qed.

Definition unfolded_tree (v : val) : Prop := Forall unfolded (leaves v).
Lemma unfolded_str v : unfolded_tree (VStr v) -> unfolded v.
Proof. intros H. inversion H; assumption. Qed.
Lemma unfolded_cons v l : unfolded_tree (VList (v :: l)) -> unfolded_tree v /\ unfolded_tree (VList l).
Proof. unfold unfolded_tree. cbn [leaves flat_map]. rewrite Forall_app. auto. Qed.

Lemma starts_hash_elems nl l R : l <> [] -> first_ok l -> elems_ok false l -> unfolded_tree (VList l) ->
  starts hash_base64 (enc_elems nl l ++ CLOSE :: R) = false.
Proof.
  intros Hne Hfirst Hel Hun.
  assert (Hh : ~ In COMMA hash_base64 /\ ~ In CLOSE hash_base64 /\ ~ In LF hash_base64) by (cbn; intuition discriminate).
  destruct Hh as (Hh1 & Hh2 & Hh3).
  destruct l as [|x t]; [congruence|]. rewrite enc_elems_cons.
  destruct x as [|x|x]; cbn [is_list].
  - inversion Hel.
  - cbn [first_ok] in Hfirst. inversion Hel as [| | |? ? ? Hx|? ? Hx|]; subst.
    + destruct t; reflexivity.
    + cbn [enc_val]. rewrite enc_str_leaf by exact Hx. rewrite <- app_assoc.
      destruct t; cbn [app]; rewrite starts_sep; assumption.
    + exfalso. apply unfolded_cons in Hun. destruct Hun as [Hun _]. apply unfolded_str in Hun.
      destruct Hun as (_ & _ & [Hu|Hu]); destruct Hx as (_ & _ & _ & Hl & Ha); [lia|congruence].
  - rewrite enc_val_list. reflexivity.
Qed.

Lemma shaped_elems nl :
  (forall b l, elems_ok b l -> unfolded_tree (VList l) -> forall R, shaped false false R = true ->
     l <> [] -> shaped false false (enc_elems nl l ++ CLOSE :: R) = true) /\
  (forall l, obj_ok l -> unfolded_tree (VList l) -> forall b R, shaped false false R = true ->
     shaped b false (OPEN :: enc_elems nl l ++ CLOSE :: R) = true).
Proof.
  assert (Hstep : forall l (Q : unfolded_tree (VList l) -> forall R, shaped false false R = true ->
     l <> [] -> shaped false false (enc_elems nl l ++ CLOSE :: R) = true), unfolded_tree (VList l) -> forall R, shaped false false R = true ->
     shaped false false (match l with [] => [] | _ => COMMA :: enc_elems nl l end ++ CLOSE :: R) = true).
  { intros l Q Hu R HR. destruct l; [exact HR|]. cbn [app]. apply (Q Hu R HR). discriminate. }
  apply elems_obj_ind.
  - congruence.
  - intros t _ IH Hu R HR _. apply unfolded_cons in Hu. rewrite enc_elems_cons. cbn [enc_val is_list app]. apply Hstep; tauto.
  - intros t _ IH Hu R HR _. apply unfolded_cons in Hu. rewrite enc_elems_cons. cbn [enc_val is_list app].
    change (enc_str nl []) with (@nil N). cbn [app]. apply Hstep; tauto.
  - intros b x t Hx _ IH Hu R HR _. apply unfolded_cons in Hu. rewrite enc_elems_cons. cbn [enc_val is_list].
    rewrite enc_str_leaf by exact Hx. rewrite <- app_assoc. apply shaped_leaf; [apply Hx|]. apply Hstep; tauto.
  - intros b x Hx Hu. exfalso. apply unfolded_cons in Hu. destruct Hu as [Hu _]. apply unfolded_str in Hu.
    destruct Hu as (_ & _ & [Hu|Hu]); destruct Hx as (_ & _ & _ & Hl & Ha); [lia|congruence].
  - intros b l t _ IHl _ IHt Hu R HR _. apply unfolded_cons in Hu. destruct Hu as [Hul Hut].
    rewrite enc_elems_cons, enc_val_list. cbn [is_list app].
    cbn [shaped andb]. change (LF =? LF) with true. change (LF =? QUOTE) with false. cbn [xorb].
    rewrite <- !app_assoc. cbn [app]. apply IHl; [exact Hul|]. destruct t as [|y t].
    + cbn [app shaped andb]. change (LF =? LF) with true. change (LF =? QUOTE) with false. cbn [xorb negb andb].
      cbn [shaped andb negb]. exact HR.
    + cbn [app]. apply IHt; [exact Hut|exact HR|discriminate].
  - intros x Hx Hu. exfalso. apply unfolded_cons in Hu. destruct Hu as [Hu _]. apply unfolded_str in Hu.
    destruct Hu as (H1 & H2 & _). destruct Hx as [(Hx & _)|(Hx & _)]; congruence.
  - intros l Hne Hfirst Hel IH Hu b R HR. cbn [shaped]. apply andb_true_iff. split.
    + destruct (b && negb false); [|reflexivity]. rewrite starts_hash_elems by assumption. reflexivity.
    + apply IH; assumption.
Qed.

Lemma shaped_roots data : roots_ok data -> Forall unfolded_tree data -> forall b, shaped b false (roots_text CRLF data) = true.
Proof.
  intros Hd. induction Hd as [|v data (l & -> & Hl) Hd IH]; intros Hu b; [reflexivity|].
  inversion Hu as [|? ? Hul Hud]; subst.
  unfold roots_text. rewrite join_flat. cbn [obj_list]. unfold enc_obj at 1. cbn [app]. rewrite <- app_assoc. cbn [app].
  apply (proj2 (shaped_elems CRLF)); [exact Hl|exact Hul|].
  destruct data as [|w data]; [reflexivity|].
  specialize (IH Hud true). unfold roots_text in IH. rewrite join_flat in IH.
  cbn [flat_map app]. exact IH.
Qed.

Lemma cut_file data a b raw : canonical data -> Forall unfolded (flat_map leaves data) ->
  encode_root_object data = Ok raw -> raw = a ++ b -> odd_quotes a = true -> exists e, decode_file (univ_nl (write_nl Posix a)) = Err e.
Proof.
  intros (Hne & Hd & Hb) Hu Hraw Hab Hodd.
  assert (raw = roots_text CRLF data).
  { unfold encode_root_object in Hraw. rewrite encode_roots in Hraw by exact Hd. congruence. }
  subst raw.
  assert (Hut : Forall unfolded_tree data).
  { clear -Hu. induction data as [|v data IH]; [constructor|]. cbn in Hu. apply Forall_app in Hu. constructor; [apply Hu|apply IH, Hu]. }
  rewrite write_nl_posix.
  assert (Hsh := shaped_roots Hd Hut true). rewrite <- H in Hsh. apply shaped_prefix in Hsh.
  assert (Hcr : ~ In CR a).
  { intros Hin. assert (HinT : In CR (roots_text [LF] data)).
    { assert (Heq : roots_text CRLF data = roots_text [LF] data).
      { clear -Hd Hut. unfold roots_text. f_equal. apply map_ext_in. intros v Hv.
        rewrite Forall_forall in Hut. apply Hut in Hv. clear -Hv.
        assert (He : forall v, unfolded_tree v -> enc_val CRLF v = enc_val [LF] v).
        { clear. induction v as [|s|l IH] using val_ind2; intros Hu; [reflexivity| |].
          - apply unfolded_str in Hu. destruct Hu as (H1 & H2 & H3). cbn [enc_val]. unfold enc_str. rewrite H1, H2.
            destruct (Nat.ltb 64 (length s)) eqn:E; [|reflexivity]. apply Nat.ltb_lt in E. destruct H3 as [H3|H3]; [lia|rewrite H3; reflexivity].
          - rewrite !enc_val_list. do 3 f_equal. induction IH as [|x l Hx Hl IHl]; [reflexivity|].
            apply unfolded_cons in Hu. destruct Hu as [Hu1 Hu2]. rewrite !enc_elems_cons. rewrite (Hx Hu1).
            f_equal. destruct l; [reflexivity|]. f_equal. apply IHl; exact Hu2. }
        destruct v as [| |l]; [reflexivity|reflexivity|].
        specialize (He _ Hv). rewrite !enc_val_list in He. cbn [obj_list]. unfold enc_obj. congruence. }
      rewrite <- Heq, <- H. apply in_or_app; auto. }
    assert (Hr : readback Posix (roots_text CRLF data) = roots_text [LF] data) by (apply readback_roots; exact Hd).
    rewrite <- Hr in HinT. unfold readback in HinT.
    revert HinT. generalize (write_nl Posix (roots_text CRLF data)). clear.
    enough (Hn : forall n l, (length l <= n)%nat -> ~ In CR (univ_nl l)) by (intros l; apply (Hn (length l)); lia).
    induction n as [|n IH]; intros l Hl; [destruct l; [cbn; tauto|cbn in Hl; lia]|].
    destruct l as [|c l]; [cbn; tauto|]. cbn in Hl. cbn [univ_nl]. destruct (c =? CR) eqn:E.
    - destruct l as [|d l]; [cbn; intuition discriminate|]. cbn in Hl. destruct (d =? LF); intros [Hx|Hx]; try discriminate; (eapply IH; [|exact Hx]); cbn; lia.
    - intros [Hx|Hx]; [subst; discriminate|]. eapply IH; [|exact Hx]. lia. }
  rewrite univ_nl_id by exact Hcr.
  apply cut_in_string; assumption.
Qed.

(** cutting outside a literal is not noticed *)
Lemma cut_accepted x y : plain x -> x <> [] -> plain y -> starts hash_base64 x = false -> (forall c, In c y -> c <> LF) ->
  decode_file (OPEN :: x ++ COMMA :: y) = Ok (DTree [VList [VStr x]]).
Proof.
  intros Hx Hne Hy Hh _. unfold decode_file.
  rewrite open_plain; [|reflexivity|destruct x; discriminate|].
  2: { rewrite starts_sep; [exact Hh|]. cbn. intuition discriminate. }
  rewrite cont_plain by (try assumption; reflexivity).
  erewrite cont_comma; [|left; reflexivity|].
  2: { apply end_value_ok; [|reflexivity]. unfold is_pc. cbn [pc]. apply str_eqb_neq. intros E. apply (plain_last Hx Hne). congruence. }
  destruct y as [|c y].
  - reflexivity.
  - rewrite <- (app_nil_r (c :: y)). rewrite cont_plain by (try assumption; try discriminate; reflexivity). reflexivity.
Qed.

(** ** C22 *)
Lemma run_text ls : forall s, md s = MText -> exists s', run_lines ls s = Ok s' /\ md s' = MText.
Proof.
  induction ls as [|l ls IH]; intros s Hm; [exists s; auto|]. cbn [run_lines]. unfold decode_line. rewrite Hm. cbn [wrap_err bind].
  apply IH. exact Hm.
Qed.
Lemma text_rejected t : text_like t -> decode_file t = Err ExtExc.
Proof.
  intros (n & c & r & -> & Hlf & Ho & Hc). unfold decode_file. induction n as [|n IH].
  - cbn [repeat app]. rewrite lines_first by discriminate. cbn [run_lines]. unfold decode_line. cbn [md init].
    assert (Hl : exists L, fst (first_line (c :: r)) = c :: L).
    { cbn [first_line]. apply N.eqb_neq in Hlf; rewrite Hlf. destruct (first_line r); cbn; eauto. }
    destruct Hl as [L HL]. rewrite HL. unfold line_param.
    apply N.eqb_neq in Ho, Hc, Hlf. rewrite Ho, Hc. cbv zeta. cbn [cv init]. rewrite Hlf. cbn [andb].
    change (data_of init) with (@nil val). cbv iota.
    replace (str_eqb (c :: L) [LF]) with false.
    2: { symmetry; apply str_eqb_neq. intros E. injection E as -> _. discriminate. }
    cbn [wrap_err bind].
    destruct (run_text (lines (snd (first_line (c :: r)))) (set_text (c :: L) (set_md MText init)) eq_refl) as (s' & Hs & Hm).
    rewrite Hs. cbn [bind]. unfold finish. rewrite Hm. reflexivity.
  - cbn [repeat app lines]. change (LF =? LF) with true. cbv iota. cbn [run_lines].
    replace (wrap_err (decode_line [LF] init)) with (Ok init) by reflexivity. cbn [bind]. exact IH.
Qed.
Lemma blank_file n : decode_file (repeat LF n) = Ok (DText []).
Proof.
  unfold decode_file. induction n as [|n IH]; [reflexivity|]. cbn [repeat lines]. change (LF =? LF) with true. cbv iota.
  cbn [run_lines]. replace (wrap_err (decode_line [LF] init)) with (Ok init) by reflexivity. exact IH.
Qed.

(** a failed write loses the old content *)
Lemma write_fails_truncates p data old e bs : brace_file_write p data old = (Err e, bs) -> bs = [].
Proof.
  unfold brace_file_write. destruct (encode_root_object data); [|congruence].
  destruct (utf8sig_encode _); congruence.
Qed.
