(** Which files come back: every file that [restorable] lists. *)
From Verif Require Import PyBase PyText Utf Brace Spec_Brace BraceProofs BraceSim BraceMain BraceFile BraceMore Cp1251 JsonText JsonTextProofs JsonSim Pipeline JsonStage Spec_Stage JsonStageProofs.
Open Scope list_scope.
Open Scope N_scope.

(** ** First characters *)
Lemma utf8_head c bs t : c < 128 -> utf8_decode bs = Ok (c :: t) -> exists r, bs = c :: r.
Proof.
  intros Hc. destruct bs as [|a bs]; [discriminate|]. cbn [utf8_decode]. destruct (a <? 128) eqn:Ea.
  { destruct (utf8_decode bs); [|discriminate]. cbn [bind]. intros H. injection H as <- _. eauto. }
  destruct ((194 <=? a) && (a <? 224)) eqn:E2.
  { destruct bs as [|b bs]; [discriminate|]. destruct (Utf.cont b) eqn:Eb; [|discriminate]. unfold Utf.cont in Eb. destruct (utf8_decode bs); [|discriminate]. cbn [bind]. intros H.
    assert (c = (a - 192) * 64 + (b - 128)) by congruence. lia. }
  destruct ((224 <=? a) && (a <? 240)) eqn:E3.
  { destruct bs as [|b [|d bs]]; try discriminate. cbv zeta. match goal with |- context [if ?x then _ else _] => destruct x eqn:Ev; [|discriminate] end. destruct (utf8_decode bs); [|discriminate]. cbn [bind]. intros H.
    assert (c = (a - 224) * 4096 + (b - 128) * 64 + (d - 128)) by congruence. lia. }
  destruct ((240 <=? a) && (a <? 245)) eqn:E4; [|discriminate].
  destruct bs as [|b [|d [|e bs]]]; try discriminate. cbv zeta. match goal with |- context [if ?x then _ else _] => destruct x eqn:Ev; [|discriminate] end. destruct (utf8_decode bs); [|discriminate]. cbn [bind]. intros H.
  assert (c = (a - 240) * 262144 + (b - 128) * 4096 + (d - 128) * 64 + (e - 128)) by congruence. lia.
Qed.
Lemma cp1251_head c bs t : c < 128 -> cp1251_decode bs = Ok (c :: t) -> exists r, bs = c :: r.
Proof.
  intros Hc. destruct bs as [|a bs]; [discriminate|]. cbn [cp1251_decode]. destruct (cp1251_char a) as [x|] eqn:Ex; [|discriminate]. destruct (cp1251_decode bs); [|discriminate]. cbn [bind]. intros H.
  injection H as -> _. destruct (N.ltb_spec a 128) as [Ha|Ha]; [rewrite cp1251_low in Ex by exact Ha; injection Ex as ->; eauto|]. apply cp1251_high_ge in Ex; lia.
Qed.
Lemma univ_head c s t : c <> LF -> univ_nl s = c :: t -> exists r, s = c :: r.
Proof.
  intros Hc. destruct s as [|x s]; [discriminate|]. cbn [univ_nl]. destruct (x =? CR).
  - destruct s as [|y s]; [intros H; injection H as <- _; congruence|]. destruct (y =? LF); intros H; injection H as <- _; congruence.
  - intros H. injection H as -> _. eauto.
Qed.
(** the text the pass looks at starts with an opening brace: so does the file *)
Lemma pass_utf8 bs raw t : utf8sig_decode bs = Ok raw -> univ_nl raw = OPEN :: t -> opens bs.
Proof. intros H1 H2. apply univ_head in H2; [|discriminate]. destruct H2 as [r ->]. apply utf8_head in H1; [exact H1|reflexivity]. Qed.
Lemma pass_cp1251 bs raw t : cp1251_decode bs = Ok raw -> univ_nl raw = OPEN :: t -> opens bs /\ strip_bom bs = bs.
Proof.
  intros H1 H2. apply univ_head in H2; [|discriminate]. destruct H2 as [r ->]. apply cp1251_head in H1; [|reflexivity]. destruct H1 as [q ->]. split; [exists q|]; reflexivity.
Qed.
Lemma decode_pass_none txt : (forall raw t, txt = Ok raw -> univ_nl raw = OPEN :: t -> jload (univ_nl raw) <> None) -> decode_pass txt = Ok None.
Proof.
  intros H. unfold decode_pass. destruct txt as [raw|]; [|reflexivity]. cbv zeta. destruct (univ_nl raw) as [|c t] eqn:E; [reflexivity|]. destruct (c =? OPEN) eqn:Ec; [|reflexivity]. apply N.eqb_eq in Ec. subst c.
  specialize (H raw t eq_refl E). rewrite E in H. destruct (jload (OPEN :: t)); [reflexivity|congruence].
Qed.
Lemma kind_bytes bs : decode_pass (utf8sig_decode bs) = Ok None -> decode_pass (cp1251_decode bs) = Ok None -> decode_kind bs = Ok KBytes.
Proof. unfold decode_kind. intros -> ->. reflexivity. Qed.

Lemma bytes_not_open bs : ~ opens bs -> decode_kind bs = Ok KBytes.
Proof.
  intros H. apply kind_bytes; apply decode_pass_none; intros raw t H1 H2; exfalso; apply H; [apply (pass_utf8 _ _ _ H1 H2)|apply (pass_cp1251 _ _ _ H1 H2)].
Qed.
Lemma bytes_json bs : json_text bs -> decode_kind bs = Ok KBytes.
Proof.
  intros (txt & Hd & Hj). apply kind_bytes; apply decode_pass_none; intros raw t H1 H2.
  - unfold utf8sig_decode in H1. fold (strip_bom bs) in H1. rewrite Hd in H1. injection H1 as <-. exact Hj.
  - destruct (pass_cp1251 _ _ _ H1 H2) as [_ Hb]. rewrite Hb in Hd. pose proof (decode_hi (length bs) bs txt raw (le_n _) Hd H1) as Hhi. apply (univ_nl_hi (length txt)) in Hhi; [|apply le_n].
    apply (jload_hi _ _ Hhi); [rewrite H2; exact I|exact Hj].
Qed.
Lemma bom_no_cp1251 bs : strip_bom bs <> bs -> decode_pass (cp1251_decode bs) = Ok None.
Proof. intros H. apply decode_pass_none. intros raw t H1 H2. destruct (pass_cp1251 _ _ _ H1 H2). congruence. Qed.

(** ** JSON files *)
Lemma nocr_escape c : ~ In CR (jescape c).
Proof.
  destruct (N.ltb_spec c 32) as [H|H].
  - apply small_in in H. cbn [map seq N.of_nat] in H. repeat (destruct H as [<-|H]; [vm_compute; intuition discriminate|]). destruct H.
  - unfold jescape. repeat match goal with |- context [if ?b then _ else _] => destruct b end; unfold BSL, QUOTE, CR; cbn [In]; try (intros HH; intuition lia).
    + intros HH. decompose [or] HH; try lia. unfold hexdigit in *. destruct (c / 16 <? 10); lia. unfold hexdigit in *. destruct (c mod 16 <? 10) eqn:?; lia.
Qed.
Lemma scalar_escape c : scalar c -> Forall scalar (jescape c).
Proof.
  intros Hc. destruct (N.ltb_spec c 32) as [H|H].
  - apply small_in in H. cbn [map seq N.of_nat] in H. repeat (destruct H as [<-|H]; [repeat constructor|]). destruct H.
  - unfold jescape. replace (c <? 32) with false by lia. repeat match goal with |- context [if ?b then _ else _] => destruct b end; try (repeat constructor; fail). constructor; [exact Hc|constructor].
Qed.
Lemma dump_chars (P : N -> Prop) v : (forall c, In c [JOPEN; JCLOSE; COMMA; LF; 32; QUOTE; 110; 117; 108] -> P c) ->
  Forall (fun c => Forall P (jescape c)) (concat (leaves v)) -> forall ind, Forall P (jdump ind v).
Proof.
  intros HP. induction v as [|s|l IH] using val_ind2; intros Hl ind.
  - cbn [jdump jnull]. repeat (constructor; [apply HP; cbn; tauto|]). constructor.
  - cbn [jdump]. unfold jstring. constructor; [apply HP; cbn; tauto|]. apply Forall_app. split; [|constructor; [apply HP; cbn; tauto|constructor]].
    cbn [leaves concat] in Hl. rewrite app_nil_r in Hl. apply Forall_flat_map. exact Hl.
  - destruct l as [|x l]; [repeat (constructor; [apply HP; cbn; tauto|]); constructor|]. rewrite jdump_list. 
    assert (Hnl : forall n, Forall P (jnl n)).
    { intros n. unfold jnl. constructor; [apply HP; cbn; tauto|]. apply Forall_forall. intros c Hc. apply repeat_spec in Hc. subst. apply HP. cbn; tauto. }
    inversion IH as [|? ? Hx IH']; subst. cbn [leaves flat_map] in Hl. rewrite concat_app in Hl. apply Forall_app in Hl. destruct Hl as [Hl1 Hl2].
    constructor; [apply HP; cbn; tauto|]. apply Forall_app. split; [apply Hnl|]. apply Forall_app. split; [apply Hx; exact Hl1|]. clear Hx Hl1 IH.
    induction l as [|y l IHl]; cbn [jtail].
    + apply Forall_app. split; [apply Hnl|]. constructor; [apply HP; cbn; tauto|constructor].
    + inversion IH' as [|? ? Hy IH2]; subst. cbn [flat_map] in Hl2. rewrite concat_app in Hl2. apply Forall_app in Hl2. destruct Hl2 as [Hl2 Hl3]. fold (jtail ind).
      constructor; [apply HP; cbn; tauto|]. apply Forall_app. split; [apply Hnl|]. apply Forall_app. split; [apply Hy; exact Hl2|]. apply IHl; assumption.
Qed.
Lemma dump_scalar v ind : scal v -> Forall scalar (jdump ind v).
Proof.
  intros H. apply dump_chars.
  - intros c Hc. cbn [In] in Hc. decompose [or] Hc; subst; try contradiction; split; reflexivity.
  - eapply Forall_impl; [|exact H]. intros c. apply scalar_escape.
Qed.
Lemma dump_nocr v ind : ~ In CR (jdump ind v).
Proof.
  intros Hin. assert (H : Forall (fun c => c <> CR) (jdump ind v)); [|rewrite Forall_forall in H; apply (H CR Hin); reflexivity]. apply dump_chars.
  - intros c Hc. cbn [In] in Hc. decompose [or] Hc; subst; try contradiction; discriminate.
  - apply Forall_forall. intros c _. apply Forall_forall. intros x Hx ->. revert Hx. apply nocr_escape.
Qed.
Lemma to_val_jv v : to_val (jv v) = Ok v.
Proof.
  induction v as [|s|l IH] using val_ind2; [reflexivity|reflexivity|]. cbn [jv to_val].
  match goal with |- bind ?x _ = _ => assert (x = Ok l) as -> end; [|reflexivity].
  induction IH as [|x l Hx HF IHl]; [reflexivity|]. cbn [map]. rewrite Hx. cbn [bind]. rewrite IHl. reflexivity.
Qed.
Lemma json_file_back os data : Forall scalar (concat (flat_map leaves data)) ->
  exists j, json_file os data = Ok j /\ encode_bytes os j = (raw <- encode_root_object data ;; utf8sig_encode (write_nl os raw)).
Proof.
  intros Hs. assert (Hv : scal (VList data)) by exact Hs. destruct (utf8_roundtrip _ (scalar_write_nl os (dump_scalar (VList data) 0 Hv))) as (j & H1 & H2).
  exists j. split; [exact H1|]. unfold encode_bytes. rewrite H2. cbn [bind]. rewrite write_nl_nocr by apply dump_nocr. rewrite jload_jdump by exact Hv. rewrite to_val_jv. reflexivity.
Qed.

Lemma opens_dec bs : opens bs \/ ~ opens bs.
Proof. unfold opens. destruct (strip_bom bs) as [|c r] eqn:E; [right; intros [r H]; discriminate|]. destruct (N.eq_dec c OPEN) as [->|Hc]; [left; eauto|]. right. intros [q H]. injection H as H _. congruence. Qed.
Lemma opens_text bs txt : opens bs -> utf8_decode (strip_bom bs) = Ok txt -> exists t, univ_nl txt = OPEN :: t.
Proof.
  intros [r ->] H. change (utf8_decode (OPEN :: r)) with (x <- utf8_decode r ;; Ok (OPEN :: x)) in H. destruct (utf8_decode r) as [x|]; [|discriminate]. cbn [bind] in H. injection H as <-. exists (univ_nl x). reflexivity.
Qed.
(** the file is read as UTF-8 and is no JSON *)
Lemma kind_brace bs txt t : utf8_decode (strip_bom bs) = Ok txt -> univ_nl txt = OPEN :: t -> jload (univ_nl txt) = None ->
  decode_kind bs = match decode_file (univ_nl txt) with Ok (DTree d) => Ok (KTree d) | Ok (DText _) => Ok KEmpty | Err BigBase64 => Ok KBig | Err _ => Err ExtExc end.
Proof.
  intros Hd Ht Hj. unfold decode_kind, utf8sig_decode. fold (strip_bom bs). rewrite Hd. unfold decode_pass. cbv zeta. rewrite Ht in *. rewrite N.eqb_refl, Hj.
  destruct (decode_file _) as [[]|[]]; reflexivity.
Qed.

Theorem restorable_back os bs : restorable os bs -> back os bs.
Proof.
  intros [H|[H|[H|H]]].
  - unfold back. rewrite bytes_not_open by exact H. exact I.
  - unfold back. rewrite bytes_json by exact H. exact I.
  - destruct H as (data & Hc & Hs & Hw). unfold back. unfold brace_file_write in Hw.
    destruct (text_roundtrip os Hc) as (raw & Hr & Hd). rewrite Hr in Hw. destruct (utf8sig_encode (write_nl os raw)) as [b|] eqn:Eb; [|discriminate]. injection Hw as ->.
    assert (Hsc : Forall scalar raw).
    { assert (Hraw : raw = roots_text CRLF data) by (destruct Hc as (_ & H & _); unfold encode_root_object in Hr; rewrite encode_roots in Hr by exact H; congruence).
      rewrite Forall_forall in *. intros c Hin. subst raw. apply in_roots_text in Hin; [|apply Hc]. destruct Hin as [Hm|Hin]; [apply mark_scalar; exact Hm|auto]. }
    destruct (utf8sig_roundtrip _ (scalar_write_nl os Hsc)) as (b2 & H1 & H2). rewrite Eb in H1. injection H1 as <-. change (utf8sig_decode bs) with (utf8_decode (strip_bom bs)) in H2.
    destruct (opens_dec bs) as [Ho|Ho]; [|rewrite bytes_not_open by exact Ho; exact I].
    destruct (opens_text _ _ Ho H2) as [t Ht]. destruct (jload (univ_nl (write_nl os raw))) as [jx|] eqn:Ej.
    + rewrite bytes_json; [exact I|]. exists (write_nl os raw). split; [exact H2|congruence].
    + rewrite (kind_brace _ _ _ H2 Ht Ej), Hd. destruct (json_file_back os data Hs) as (j & Hj1 & Hj2). exists j. split; [exact Hj1|]. rewrite Hj2, Hr. exact Eb.
  - destruct H as (txt & Hd & Hb). unfold back. destruct (opens_dec bs) as [Ho|Ho]; [|rewrite bytes_not_open by exact Ho; exact I].
    destruct (opens_text _ _ Ho Hd) as [t Ht]. destruct (jload (univ_nl txt)) as [jx|] eqn:Ej.
    + rewrite bytes_json; [exact I|]. exists txt. split; [exact Hd|congruence].
    + rewrite (kind_brace _ _ _ Hd Ht Ej), Hb. exact I.
Qed.
