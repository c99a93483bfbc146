(** Property theorems C16-C22 and C41 (brace files).  Specification: Spec_Brace.v; model: Brace.v. *)
From Coq Require Import String.
From Verif Require Import PyBase PyText PyB64 Utf Brace Spec_Brace BraceProofs BraceSim BraceMain BraceFile BraceMore.
Open Scope list_scope.
Open Scope N_scope.

(** C16: text round trip, with the newline translation of either platform *)
Theorem C16_text_roundtrip : forall p data, canonical data ->
  exists raw, encode_root_object data = Ok raw /\ decode_file (univ_nl (write_nl p raw)) = Ok (DTree data).
Proof. exact text_roundtrip. Qed.
Print Assumptions C16_text_roundtrip.

(** C17: the same through the bytes of a file, whatever was in the file before *)
Theorem C17_file_roundtrip : forall p cp1251 data old, canonical data -> Forall scalar (concat (flat_map leaves data)) ->
  exists bs, brace_file_write p data old = (Ok tt, bs) /\ brace_file_read cp1251 bs = Ok (DTree data).
Proof. exact file_roundtrip. Qed.
Print Assumptions C17_file_roundtrip.

(** C18 *)
Theorem C18_encoding_injective : forall a b, canonical a -> canonical b ->
  encode_root_object a = encode_root_object b -> a = b.
Proof. exact encode_inj. Qed.
Print Assumptions C18_encoding_injective.

(** C19: binary payloads *)
Theorem C19_folded_payload : forall p x, Forall payload_char x -> (64 <= length x)%nat ->
  exists raw, encode_root_object [VList [VStr (p_base64 ++ x)]] = Ok raw /\
  decode_file (univ_nl (write_nl p raw)) = Ok (DTree [VList [VStr (p_base64 ++ x)]]).
Proof.
  intros p x Hx Hl. apply text_roundtrip. split; [discriminate|]. split; [|exact I].
  constructor; [|constructor]. eexists. split; [reflexivity|]. apply o_b64. left.
  split; [apply starts_app|]. split; [rewrite app_length; cbn [length p_base64]; lia|].
  apply Forall_app. split; [|exact Hx]. repeat constructor; unfold payload_char; cbn; intuition discriminate.
Qed.
Print Assumptions C19_folded_payload.
Theorem C19_single_line_payload : forall p x, Forall payload_char x ->
  exists raw, encode_root_object [VList [VStr (pp_base64 ++ x)]] = Ok raw /\
  decode_file (univ_nl (write_nl p raw)) = Ok (DTree [VList [VStr (pp_base64 ++ x)]]).
Proof.
  intros p x Hx. apply text_roundtrip. split; [discriminate|]. split; [|exact I].
  constructor; [|constructor]. eexists. split; [reflexivity|]. apply o_b64. right. split; [apply starts_app|].
  apply Forall_app. split; [|exact Hx]. repeat constructor; unfold payload_char; cbn; intuition discriminate.
Qed.
Print Assumptions C19_single_line_payload.
(** ... but a folded payload shorter than one line comes back marked as a single-line one *)
Theorem C19_short_folded_refuted : forall p x, Forall payload_char x -> (length x < 64)%nat ->
  exists raw, encode_root_object [VList [VStr (p_base64 ++ x)]] = Ok raw /\
  decode_file (univ_nl (write_nl p raw)) = Ok (DTree [VList [VStr (pp_base64 ++ x)]]).
Proof. exact short_payload. Qed.
Print Assumptions C19_short_folded_refuted.

(** C20 *)
Theorem C20_verbatim : forall s, starts p_base64 s = false -> starts pp_base64 s = false ->
  (length s <= 64)%nat \/ (exists c, In c s /\ 128 <= c) ->
  encode_root_object [VList [VStr s]] = Ok (OPEN :: s ++ [CLOSE]).
Proof.
  intros s H1 H2 H3. apply verbatim. repeat split; [exact H1|exact H2|].
  destruct H3 as [H|(c & Hin & Hc)]; [left; exact H|right; eapply b64_nonascii; eassumption].
Qed.
Print Assumptions C20_verbatim.
Theorem C20_line_break_inserted : forall s, starts p_base64 s = false -> starts pp_base64 s = false ->
  (64 < length s)%nat -> b64_accepts s = true ->
  exists rest, encode_root_object [VList [VStr s]] = Ok (OPEN :: firstn 64 s ++ CRLF ++ rest).
Proof. exact broken_verbatim. Qed.
Print Assumptions C20_line_break_inserted.
Theorem C20_verbatim_refuted : exists s s' raw, quoted s /\ s' <> s /\
  encode_root_object [VList [VStr s]] = Ok raw /\
  decode_file (univ_nl (write_nl Posix raw)) = Ok (DTree [VList [VStr s']]).
Proof.
  exists (QUOTE :: repeat 65 64 ++ [QUOTE]), (QUOTE :: repeat 65 63 ++ [LF; 65; QUOTE]).
  eexists. split; [|split; [|split; [vm_compute; reflexivity|vm_compute; reflexivity]]].
  - exists (repeat 65 64). split; [reflexivity|]. split.
    + repeat (apply dq_char; [discriminate|]). apply dq_nil.
    + intros H. apply repeat_spec in H. discriminate.
  - intros E. vm_compute in E. discriminate.
Qed.
Print Assumptions C20_verbatim_refuted.

(** C21 *)
Theorem C21_ends_in_literal_rejected : forall t, shaped true false t = true -> odd_quotes t = true ->
  exists e, decode_file t = Err e.
Proof. exact cut_in_string. Qed.
Print Assumptions C21_ends_in_literal_rejected.
Theorem C21_cut_file_rejected : forall data a b raw, canonical data -> Forall unfolded (flat_map leaves data) ->
  encode_root_object data = Ok raw -> raw = a ++ b -> odd_quotes a = true ->
  exists e, decode_file (univ_nl (write_nl Posix a)) = Err e.
Proof. exact cut_file. Qed.
Print Assumptions C21_cut_file_rejected.
(** every two-field file cut before its closing brace is accepted without its last field *)
Theorem C21_cut_outside_refuted : forall x y, plain x -> x <> [] -> plain y -> unfolded x -> unfolded y ->
  starts hash_base64 x = false ->
  exists cut, encode_root_object [VList [VStr x; VStr y]] = Ok (cut ++ [CLOSE]) /\
              decode_file cut = Ok (DTree [VList [VStr x]]).
Proof.
  intros x y Hx Hne Hy Hux Huy Hh. exists (OPEN :: x ++ COMMA :: y). split.
  - assert (He : forall s, unfolded s -> enc_str CRLF s = s).
    { intros s Hs. apply verbatim in Hs. unfold encode_root_object in Hs. cbn [enc_roots_go enc_root1 bind app] in Hs.
      unfold enc_obj in Hs. rewrite enc_elems_cons in Hs. cbn [enc_val is_list] in Hs. rewrite app_nil_r in Hs.
      assert (H : enc_str CRLF s ++ [CLOSE] = s ++ [CLOSE]) by congruence. apply app_inj_tail in H. apply H. }
    unfold encode_root_object. cbn [enc_roots_go enc_root1 bind app]. unfold enc_obj. rewrite !enc_elems_cons.
    cbn [enc_val is_list]. rewrite !He by assumption. rewrite app_nil_r. rewrite <- !app_assoc. reflexivity.
  - apply cut_accepted; try assumption. intros c Hin ->. unfold plain in Hy. rewrite Forall_forall in Hy.
    apply Hy in Hin. apply Hin. unfold LF; cbn; auto.
Qed.
Print Assumptions C21_cut_outside_refuted.

(** C22 *)
Theorem C22_text_file_refuted : forall t, text_like t -> decode_file t = Err ExtExc.
Proof. exact text_rejected. Qed.
Print Assumptions C22_text_file_refuted.
Theorem C22_blank_file : forall n, decode_file (repeat LF n) = Ok (DText []).
Proof. exact blank_file. Qed.
Print Assumptions C22_blank_file.

(** C41 *)
Theorem C41_failed_write_refuted : forall p data old e bs, brace_file_write p data old = (Err e, bs) -> bs = [].
Proof. exact write_fails_truncates. Qed.
Print Assumptions C41_failed_write_refuted.

(** ** The hypotheses are met by concrete, non-trivial cases *)
Definition qs (s : string) : list N := QUOTE :: u s ++ [QUOTE].
(** a two-root file with nested objects, a literal with doubled quotes, commas, braces and
    line breaks (one of them right after the opening quote), absent values and a payload *)
Definition sample : list val :=
  [VList [VStr (u "2");
          VList [VStr (u "d5963243-262e-4398-b4d7-fb16d06484f6"); VStr []; VStr (QUOTE :: LF :: u "a,b}""""c" ++ [LF; QUOTE]);
                 VList [VStr (u "{0")]; VNone; VStr []];
          VList [VStr (p_base64 ++ repeat 65 130)]; VNone];
   VList [VList [VStr (repeat 65 100)]];
   VList [VStr (u "#data:" ++ repeat 65 100)]].

Ltac dsolve := repeat first [apply dq_nil | apply dq_quote | apply dq_char; [discriminate|]].
Lemma not_in_b : forall (x : N) l, existsb (N.eqb x) l = false -> ~ In x l.
Proof.
  intros x l H Hin. assert (existsb (N.eqb x) l = true) by (apply existsb_exists; exists x; split; [exact Hin|apply N.eqb_refl]).
  congruence.
Qed.
Lemma forall_not_in_b : forall (l s : list N), forallb (fun x => negb (existsb (N.eqb x) l)) s = true -> Forall (fun x => ~ In x l) s.
Proof.
  intros l s H. apply Forall_forall. intros x Hx. rewrite forallb_forall in H. apply H in Hx.
  apply not_in_b. apply negb_true_iff. exact Hx.
Qed.
Ltac in_solve := apply not_in_b; vm_compute; reflexivity.
Ltac fin_solve := apply forall_not_in_b; vm_compute; reflexivity.
Ltac plain_solve := left; fin_solve.
Ltac len_solve := apply Nat.leb_le; vm_compute; reflexivity.
Ltac leaf_solve := split; [discriminate|]; split; [|split; [reflexivity|split; [reflexivity|left; len_solve]]].

Example sample_canonical : canonical sample.
Proof.
  split; [discriminate|]. split; [|cbn; discriminate].
  assert (Hlong : forall x, forallb (fun c => negb (existsb (N.eqb c) [COMMA; CLOSE; QUOTE; LF; CR]) && negb (c =? OPEN)) x = true ->
    Forall (fun c => plain_char c /\ c <> OPEN) x).
  { intros x Hx. apply Forall_forall. intros c Hc. rewrite forallb_forall in Hx. apply Hx in Hc. apply andb_true_iff in Hc. destruct Hc as [H1 H2].
    split; [apply not_in_b; apply negb_true_iff; exact H1|apply negb_true_iff, N.eqb_neq in H2; exact H2]. }
  apply Forall_cons; [|apply Forall_cons; [|apply Forall_cons; [|apply Forall_nil]]].
  - eexists. split; [reflexivity|]. apply o_list; [discriminate|reflexivity|].
    apply e_leaf; [leaf_solve; plain_solve|].
    apply e_obj; [apply o_list; [discriminate|reflexivity|]|].
    + apply e_leaf; [leaf_solve; plain_solve|]. apply e_empty.
      apply e_leaf; [leaf_solve|].
      { right. exists (LF :: u "a,b}""""c" ++ [LF]). split; [reflexivity|]. split; [|in_solve].
        vm_compute. dsolve. }
      apply e_obj; [apply o_list; [discriminate|reflexivity|]|].
      * apply e_leaf; [leaf_solve; plain_solve|]. apply e_nil.
      * apply e_none. apply e_empty. apply e_nil.
    + apply e_obj; [apply o_b64; left|].
      * split; [apply starts_app|]. split; [len_solve|].
        fin_solve.
      * apply e_none. apply e_nil.
  - eexists. split; [reflexivity|]. apply o_list; [discriminate|exact I|].
    apply e_obj; [apply o_list; [discriminate|reflexivity|]|apply e_nil].
    apply e_long. split; [apply Hlong; vm_compute; reflexivity|]. split; [reflexivity|]. split; [reflexivity|]. split; [len_solve|reflexivity].
  - eexists. split; [reflexivity|]. apply o_list; [discriminate|reflexivity|].
    apply e_long. split; [apply Hlong; vm_compute; reflexivity|]. split; [reflexivity|]. split; [reflexivity|]. split; [len_solve|reflexivity].
Qed.
Example sample_scalar : Forall scalar (concat (flat_map leaves sample)).
Proof.
  apply Forall_forall. intros c Hc.
  assert (H : forallb scalarb (concat (flat_map leaves sample)) = true) by (vm_compute; reflexivity).
  rewrite forallb_forall in H. apply H in Hc. unfold scalarb in Hc. apply andb_true_iff in Hc. destruct Hc as [H1 H2].
  split; [apply N.ltb_lt; exact H1|apply negb_true_iff; exact H2].
Qed.
(** the model agrees with C16 on the sample *)
Example sample_text : match encode_root_object sample with
  | Ok raw => match decode_file (univ_nl (write_nl Windows raw)) with Ok (DTree d) => length d = 3%nat | _ => False end
  | Err _ => False end.
Proof. vm_compute. reflexivity. Qed.

Definition small : list val := [VList [VStr (u "1"); VStr (QUOTE :: u "x{" ++ [LF; QUOTE])]].
Example small_canonical : canonical small /\ Forall unfolded (flat_map leaves small).
Proof.
  split.
  - split; [discriminate|]. split; [|cbn; reflexivity].
    apply Forall_cons; [|apply Forall_nil]. eexists. split; [reflexivity|]. apply o_list; [discriminate|reflexivity|].
    apply e_leaf; [leaf_solve; plain_solve|]. apply e_leaf; [leaf_solve|apply e_nil].
    right. exists (u "x{" ++ [LF]). split; [reflexivity|]. split; [vm_compute; dsolve|in_solve].
  - cbn [flat_map leaves small app]. apply Forall_cons; [|apply Forall_cons; [|apply Forall_nil]]; (split; [reflexivity|split; [reflexivity|left; len_solve]]).
Qed.
Example small_cut : exists a b raw, encode_root_object small = Ok raw /\ raw = a ++ b /\ odd_quotes a = true.
Proof. exists (u "{1,""x"), (u "{" ++ [LF; QUOTE; CLOSE]). eexists. vm_compute. repeat split. Qed.
Example shaped_example : shaped true false (u "{1,""x") = true /\ odd_quotes (u "{1,""x") = true.
Proof. split; reflexivity. Qed.
Example text_like_example : text_like (LF :: u "Procedure").
Proof. exists 1%nat, 80, (u "rocedure"). repeat split; discriminate. Qed.
Example write_can_fail : brace_file_write Posix [VNone] (u "old") = (Err ExtExc, []).
Proof. reflexivity. Qed.
Example plain_pair : plain (u "10") /\ plain (u "0") /\ unfolded (u "10") /\ unfolded (u "0") /\ starts hash_base64 (u "10") = false.
Proof. repeat split; try fin_solve; try (left; len_solve); reflexivity. Qed.
