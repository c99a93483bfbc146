(** Templates and files copied as they are: lemmas for Props_Payload.v. *)
From Coq Require Import String.
From Verif Require Import PyBase PyText Utf Cp1251 Codecs PyB64 B64 Brace Spec_Brace BraceMain BraceFile BraceMore Pipeline Spec_Stage ObjCode Spec_Obj ObjCodeProofs ObjCodeMain ObjCodeEdit Payload Spec_Payload PayloadProofs.
Open Scope list_scope.
Open Scope N_scope.

(** ** text *)
Lemma text_same os bs : utf8_text os bs -> exists t, text_load (detect_by_bom bs) bs = Ok t /\ text_store os (detect_by_bom bs) t = Ok bs.
Proof.
  intros (x & H & Hx). exists x. unfold text_load, text_store, strip_bom in *. destruct (starts utf8_bom bs) eqn:E.
  - rewrite (detect_sig _ E). rewrite dc_sig, ec_sig. unfold utf8sig_decode, utf8sig_encode. rewrite E, H. cbn [bind]. rewrite univ_write_nocr by exact Hx. split; [reflexivity|].
    rewrite (utf8_decode_encode _ _ H). cbn [bind]. f_equal. apply starts_spec in E. destruct E as [r ->]. reflexivity.
  - rewrite (detect_plain _ _ H E). rewrite dc_utf8, ec_utf8, H. cbn [bind]. rewrite univ_write_nocr by exact Hx. split; [reflexivity|]. apply utf8_decode_encode, H.
Qed.
Lemma txt_write_ok os t (fo : folder) name e bs : text_store os e t = Ok bs -> file_or_none (dget name fo) -> txt_write os (CText t) fo name e = Ok (dset name (TFile bs) fo).
Proof. intros H E. unfold txt_write. rewrite H. apply put_file_ok. exact E. Qed.
Lemma text_out_ok os (src dest : folder) sname dname bs : dget sname src = Some (TFile bs) -> utf8_text os bs -> dget dname dest = None ->
  text_out os src sname dest dname = Ok (dset dname (TFile bs) dest).
Proof.
  intros Hs Ht Hd. unfold text_out. rewrite Hs. destruct (text_same os bs Ht) as (t & L & W). cbv zeta. rewrite L. cbn [bind]. apply txt_write_ok; [exact W|left; exact Hd].
Qed.
Lemma text_back_ok os (src dest : folder) sname dname bs files : dget sname src = Some (TFile bs) -> utf8_text os bs -> dget dname dest = None ->
  text_back os src sname dest dname files = Ok (dset dname (TFile bs) dest, files ++ [dname]).
Proof.
  intros Hs Ht Hd. unfold text_back. rewrite Hs. destruct (text_same os bs Ht) as (t & L & W). cbv zeta. rewrite L. cbn [bind].
  rewrite (txt_write_ok _ _ _ _ _ _ W) by (left; exact Hd). reflexivity.
Qed.

(** ** binary *)
Lemma big_read (fo : folder) name bs : dget name fo = Some (TFile bs) -> big_text bs -> brace_read fo name = Err BigBase64.
Proof.
  intros E (txt & H1 & H2). unfold brace_read. rewrite E. unfold brace_file_read. unfold strip_bom in H1. unfold utf8sig_decode. rewrite H1. cbv zeta. rewrite H2. reflexivity.
Qed.


Lemma ext_not_idjson alnum c : extension_of alnum c <> s_idjson.
Proof.
  unfold extension_of. cbv zeta. destruct (strip c) as [|x s]; [discriminate|].
  destruct (Nat.ltb (length (last_word (x :: s))) 6) eqn:E; [|discriminate]. cbn [andb]. destruct (match last_word (x :: s) with [] => false | _ :: _ => forallb alnum (last_word (x :: s)) end); [|discriminate].
  intros H. rewrite H in E. discriminate.
Qed.

(** the sources: nothing changed but the two files that describe the object *)

Lemma copy_cycle uuid fname ext (src dest out : folder) e : dget (dotted uuid s_zero) src = e -> (e = None \/ exists bs, e = Some (TFile bs)) ->
  ext <> s_json -> ext <> s_idjson -> ext <> s_txt -> (forall x, dget (dotted fname x) dest = None) -> dget (dotted uuid s_zero) out = None ->
  exists dest', copy_out src (dotted uuid s_zero) dest (dotted fname ext) = Ok dest' /\
    (forall n, (forall x, x <> s_json -> x <> s_idjson -> n <> dotted fname x) -> dget n dest' = dget n dest) /\
    forall os (srcs : folder) files, same_sources fname srcs dest' ->
      exists out', scheme_back os srcs fname ext out (dotted uuid s_zero) files = Ok (out', files ++ match e with None => [] | Some _ => [dotted uuid s_zero] end) /\
        dget (dotted uuid s_zero) out' = e /\ (forall n, n <> dotted uuid s_zero -> dget n out' = dget n out).
Proof.
  intros Hs He N1 N2 N3 Hd Ho. unfold copy_out. rewrite Hs.
  assert (Nx : forall a b, a <> b -> dotted fname a <> dotted fname b) by (intros a b Hab E; apply dotted_inj in E; congruence).
  destruct He as [->|(bs & ->)].
  - exists dest. split; [reflexivity|]. split; [reflexivity|]. intros os srcs files Hsame. exists out. unfold scheme_back, text_back.
    rewrite (Hsame ext) by assumption. rewrite (Hsame s_txt) by discriminate. rewrite !Hd, app_nil_r. split; [reflexivity|]. split; [exact Ho|reflexivity].
  - rewrite copy_file_ok by (left; apply Hd). eexists. split; [reflexivity|]. split; [intros n Hn; apply dget_dset_other; apply Hn; (assumption || discriminate)|].
    intros os srcs files Hsame. exists (dset (dotted uuid s_zero) (TFile bs) out). unfold scheme_back, copy_back.
    rewrite (Hsame ext) by assumption. rewrite dget_dset_same. rewrite copy_file_ok by (left; exact Ho). split; [reflexivity|].
    split; [apply dget_dset_same|]. intros n Hn. apply dget_dset_other. exact Hn.
Qed.

Lemma template_restored os alnum ty uuid fname comment (src dest out : folder) (h : header) files e :
  dget (dotted uuid s_zero) src = e -> tmpl_entry os (kind_of ty) e ->
  (kind_of ty = KBinary -> extension_of alnum comment <> s_c1b64 /\ extension_of alnum comment <> s_json) ->
  (forall x, dget (dotted fname x) dest = None) -> dget (dotted uuid s_zero) out = None -> dget s_html h = None ->
  exists dest' h', tmpl_out os alnum ty src uuid dest fname comment h = Ok (dest', h') /\
    (forall n, (forall x, x <> s_json -> x <> s_idjson -> n <> dotted fname x) -> dget n dest' = dget n dest) /\ (forall k, k <> s_html -> dget k h' = dget k h) /\
    forall (srcs : folder) (h2 : header), same_sources fname srcs dest' -> dget s_html h2 = dget s_html h' ->
      exists out' h3, tmpl_back os alnum ty srcs fname uuid out comment h2 files = Ok (out', h3, files ++ match e with None => [] | Some _ => [dotted uuid s_zero] end) /\
        dget (dotted uuid s_zero) out' = e /\ (forall n, n <> dotted uuid s_zero -> dget n out' = dget n out) /\ (forall k, k <> s_html -> dget k h3 = dget k h2).
Proof.
  intros Hs He Hext Hd Ho Hh.
  assert (Nx : forall a b, a <> b -> dotted fname a <> dotted fname b) by (intros a b Hab E; apply dotted_inj in E; congruence).
  assert (Copy : forall ext, (e = None \/ exists bs, e = Some (TFile bs)) -> ext <> s_json -> ext <> s_idjson -> ext <> s_txt ->
    exists dest' h', (d <- copy_out src (dotted uuid s_zero) dest (dotted fname ext) ;; Ok (d, h)) = Ok (dest', h') /\
      (forall n, (forall x, x <> s_json -> x <> s_idjson -> n <> dotted fname x) -> dget n dest' = dget n dest) /\ (forall k, k <> s_html -> dget k h' = dget k h) /\
      forall (srcs : folder) (h2 : header), same_sources fname srcs dest' -> dget s_html h2 = dget s_html h' ->
        exists out' h3, (' (d, f) <- scheme_back os srcs fname ext out (dotted uuid s_zero) files ;; Ok (d, h2, f)) = Ok (out', h3, files ++ match e with None => [] | Some _ => [dotted uuid s_zero] end) /\
        dget (dotted uuid s_zero) out' = e /\ (forall n, n <> dotted uuid s_zero -> dget n out' = dget n out) /\ (forall k, k <> s_html -> dget k h3 = dget k h2)).
  { intros ext He2 N1 N2 N3. destruct (copy_cycle uuid fname ext src dest out e Hs He2 N1 N2 N3 Hd Ho) as (dest' & C1 & C2 & C3).
    exists dest', h. rewrite C1. split; [reflexivity|]. split; [exact C2|]. split; [reflexivity|]. intros srcs h2 Hsame _.
    destruct (C3 os srcs files Hsame) as (out' & D1 & D2 & D3). exists out', h2. rewrite D1. split; [reflexivity|]. split; [exact D2|]. split; [exact D3|reflexivity]. }
  assert (Bin : tmpl_entry os KBinary e -> extension_of alnum comment <> s_c1b64 -> extension_of alnum comment <> s_json ->
    exists dest' h', (d <- base64_out alnum src (dotted uuid s_zero) dest fname comment ;; Ok (d, h)) = Ok (dest', h') /\
      (forall n, (forall x, x <> s_json -> x <> s_idjson -> n <> dotted fname x) -> dget n dest' = dget n dest) /\ (forall k, k <> s_html -> dget k h' = dget k h) /\
      forall (srcs : folder) (h2 : header), same_sources fname srcs dest' -> dget s_html h2 = dget s_html h' ->
        exists out' h3, (' (d, f) <- base64_back os alnum srcs fname comment out (dotted uuid s_zero) files ;; Ok (d, h2, f)) = Ok (out', h3, files ++ match e with None => [] | Some _ => [dotted uuid s_zero] end) /\
        dget (dotted uuid s_zero) out' = e /\ (forall n, n <> dotted uuid s_zero -> dget n out' = dget n out) /\ (forall k, k <> s_html -> dget k h3 = dget k h2)).
  { intros Hb N1 N2. pose proof (ext_not_idjson alnum comment) as N3. destruct Hb as [->|(bs & -> & Hb)]; unfold base64_out.
    - assert (R : brace_read src (dotted uuid s_zero) = Err FileNotFoundError) by (unfold brace_read; rewrite Hs; reflexivity). rewrite R. cbn [bind].
      exists dest, h. split; [reflexivity|]. split; [reflexivity|]. split; [reflexivity|]. intros srcs h2 Hsame _. exists out, h2.
      unfold base64_back, bin_read. rewrite (Hsame (extension_of alnum comment)) by assumption. rewrite (Hsame s_c1b64) by discriminate.
      rewrite !Hd. cbn [bind]. rewrite app_nil_r. split; [reflexivity|]. split; [exact Ho|]. split; reflexivity.
    - rewrite (big_read _ _ _ Hs Hb). unfold copy_out. rewrite Hs. rewrite copy_file_ok by (left; apply Hd). cbn [bind].
      eexists. eexists. split; [reflexivity|]. split; [intros n Hn; apply dget_dset_other; apply Hn; (assumption || discriminate)|]. split; [reflexivity|].
      intros srcs h2 Hsame _. exists (dset (dotted uuid s_zero) (TFile bs) out), h2. unfold base64_back, bin_read.
      rewrite (Hsame (extension_of alnum comment)) by assumption. rewrite (Hsame s_c1b64) by discriminate.
      rewrite dget_dset_other by (apply Nx; congruence). rewrite Hd, dget_dset_same. rewrite copy_file_ok by (left; exact Ho). cbn [bind].
      split; [reflexivity|]. split; [apply dget_dset_same|]. split; [|reflexivity]. intros n Hn. apply dget_dset_other. exact Hn. }
  destruct ty; cbn [kind_of] in He, Hext; unfold tmpl_out, tmpl_back; cbv zeta; try (apply Copy; [exact He|discriminate|discriminate|discriminate]);
    try (destruct (Hext eq_refl) as (N1 & N2); apply Bin; assumption).
  - destruct He as (content & He). destruct (help_restored os uuid s_zero fname s_html s_html src dest out h files e content Hs He ltac:(discriminate) Hh (Hd _) (Hd _) Ho)
      as (dest' & h' & D1 & D2 & D3 & D4 & D5).
    exists dest', h'. split; [exact D1|]. split; [intros n Hn; apply D3; apply Hn; discriminate|]. split; [exact D4|]. intros srcs h2 Hsame Hh2.
    destruct (D5 srcs h2) as (out' & h3 & F1 & F2 & F3 & F4); [apply Hsame; discriminate|apply Hsame; discriminate|exact Hh2|].
    exists out', h3. auto.
  - destruct He as [->|(bs & -> & Ht)].
    + unfold text_out. rewrite Hs. cbn [bind]. exists dest, h. split; [reflexivity|]. split; [reflexivity|]. split; [reflexivity|]. intros srcs h2 Hsame _. exists out, h2.
      unfold text_back. rewrite (Hsame s_txt) by discriminate. rewrite Hd. cbn [bind]. rewrite app_nil_r. split; [reflexivity|]. split; [exact Ho|]. split; reflexivity.
    + rewrite (text_out_ok os _ _ _ _ _ Hs Ht) by (apply Hd). cbn [bind]. eexists. eexists. split; [reflexivity|]. split; [intros n Hn; apply dget_dset_other; apply Hn; (assumption || discriminate)|]. split; [reflexivity|].
      intros srcs h2 Hsame _. exists (dset (dotted uuid s_zero) (TFile bs) out), h2.
      rewrite (text_back_ok os srcs out _ _ bs) by (try exact Ht; try exact Ho; rewrite (Hsame s_txt) by discriminate; apply dget_dset_same).
      cbn [bind]. split; [reflexivity|]. split; [apply dget_dset_same|]. split; [|reflexivity]. intros n Hn. apply dget_dset_other. exact Hn.
Qed.

(** ** a binary file put among the sources *)
(** the text without line breaks *)
Lemma flat_app a b : flat (a ++ b) = flat a ++ flat b.
Proof. apply filter_app. Qed.
Lemma flat_id s : Forall (fun c => payload_char c) s -> flat s = s.
Proof.
  induction 1 as [|c s Hc Hs IH]; [reflexivity|]. unfold flat in *. cbn [filter]. unfold payload_char, CLOSE, LF, CR in Hc. cbn [In] in Hc.
  replace (negb ((c =? 10) || (c =? 13))) with true by lia. rewrite IH. reflexivity.
Qed.
Lemma flat_fold elem : forall fuel j, (length elem <= j + 64 * fuel)%nat -> flat (fold_b64 CRLF fuel elem j) = flat (skipn j elem).
Proof.
  induction fuel as [|k IH]; intros j H; cbn [fold_b64].
  - rewrite skipn_all2 by lia. reflexivity.
  - destruct (Nat.leb_spec j (length elem)) as [L|L]; [|rewrite skipn_all2 by lia; reflexivity].
    rewrite !flat_app. change (flat CRLF) with (@nil N). cbn [app]. rewrite IH by lia. rewrite <- flat_app. f_equal.
    rewrite <- (firstn_skipn 64 (skipn j elem)) at 2. rewrite skipn_skipn'. reflexivity.
Qed.
Lemma b64_string_chars b : B64.bytes b -> Forall payload_char (b64_string b) /\ Forall scalar (b64_string b).
Proof.
  intros H. assert (K : forall m, Forall (fun c => payload_char c /\ c < 128) m -> Forall payload_char m /\ Forall scalar m).
  { intros m Hm. split; eapply Forall_impl; try exact Hm; intros c [Hc Hl]; [exact Hc|]. split; [lia|unfold is_surrogate; lia]. }
  apply K. assert (Ka : forall m, forallb (fun c => negb (existsb (N.eqb c) [CLOSE; LF; CR]) && (c <? 128)) m = true -> Forall (fun c => payload_char c /\ c < 128) m).
  { intros m Em. rewrite forallb_forall in Em. apply Forall_forall. intros c Hc. apply Em in Hc. apply andb_true_iff in Hc. destruct Hc as [Hc Hl]. split; [|lia].
    intros Hin. apply negb_true_iff in Hc. assert (existsb (N.eqb c) [CLOSE; LF; CR] = true) by (apply existsb_exists; exists c; split; [exact Hin|apply N.eqb_refl]). congruence. }
  unfold b64_string. destruct b as [|x b]; [apply Ka; reflexivity|]. apply Forall_app. split; [apply Ka; reflexivity|].
  eapply Forall_impl; [|apply b64_encode_chars; exact H]. intros c Hc. split; [|apply b64c_ascii; exact Hc].
  unfold b64c, b64_alpha, b64_pad in Hc. unfold payload_char, CLOSE, LF, CR. cbn [In]. lia.
Qed.
Definition built_text (x : list N) : list N := OPEN :: lit_1 ++ [COMMA; LF; OPEN] ++ x ++ [CLOSE; LF; CLOSE].
Lemma built_encodes s : encode_root_object [VList [VStr lit_1; VList [VStr s]]] = Ok (built_text (enc_str CRLF s)).
Proof.
  unfold encode_root_object. cbn [enc_roots_go enc_root1 bind app]. unfold enc_obj, built_text. rewrite !enc_elems_cons, enc_val_list, enc_elems_cons.
  cbn [is_list enc_val]. rewrite app_nil_r. change (enc_str CRLF lit_1) with lit_1. cbn [lit_1 app]. rewrite <- !app_assoc. reflexivity.
Qed.
Lemma flat_built b : B64.bytes b -> flat (enc_str CRLF (b64_string b)) = p_base64 ++ b64_encode b.
Proof.
  intros H. destruct b as [|c b]; [reflexivity|]. destruct (b64_string_chars _ H) as [K _]. unfold b64_string in *. set (e := p_base64 ++ b64_encode (c :: b)) in *.
  unfold enc_str. change (starts p_base64 e) with true. cbv iota. rewrite flat_app, flat_fold by lia. rewrite <- flat_app, firstn_skipn. apply flat_id. exact K.
Qed.
Lemma enc_hash b : exists r, enc_str CRLF (b64_string b) = hash_base64 ++ r.
Proof. destruct b as [|c b]; [exists [58]; reflexivity|]. unfold b64_string, enc_str. change (starts p_base64 (p_base64 ++ b64_encode (c :: b))) with true. cbv iota. eexists. reflexivity. Qed.

Lemma binary_built os b : B64.bytes b -> exists bs x,
  brace_file_write os [VList [VStr lit_1; VList [VStr (b64_string b)]]] [] = (Ok tt, bs) /\
  utf8_decode (strip_bom bs) = Ok (write_nl os (built_text x)) /\ flat x = p_base64 ++ b64_encode b /\ big_text bs.
Proof.
  intros H. destruct (b64_string_chars b H) as [K1 K2]. set (x := enc_str CRLF (b64_string b)).
  assert (Sc : Forall scalar (built_text x)).
  { unfold built_text. assert (A : forall m, forallb (fun c => c <? 128) m = true -> Forall scalar m).
    { intros m Hm. rewrite forallb_forall in Hm. apply Forall_forall. intros c Hc. apply Hm in Hc. split; [lia|unfold is_surrogate; lia]. }
    constructor; [split; reflexivity|]. apply Forall_app. split; [apply A; reflexivity|]. apply Forall_app. split; [apply A; reflexivity|]. apply Forall_app. split; [|apply A; reflexivity].
    apply Forall_forall. intros c Hx. apply in_enc_str in Hx. rewrite Forall_forall in K2. destruct Hx as [Hx|Hx]; [|apply K2, Hx].
    cbn [CRLF In] in Hx. destruct Hx as [<-|[<-|[]]]; split; reflexivity. }
  destruct (utf8sig_roundtrip _ (scalar_write_nl os Sc)) as (bs & W & R).
  assert (Hu : utf8_decode (strip_bom bs) = Ok (write_nl os (built_text x))) by exact R.
  exists bs, x. split; [unfold brace_file_write; rewrite built_encodes; fold x; rewrite W; reflexivity|]. split; [exact Hu|]. split; [apply flat_built; exact H|].
  exists (write_nl os (built_text x)). split; [exact Hu|]. destruct (enc_hash b) as (r & Er). fold x in Er.
  assert (Eh : built_text x = (OPEN :: lit_1 ++ [COMMA; LF; OPEN] ++ hash_base64) ++ (r ++ [CLOSE; LF; CLOSE])) by (unfold built_text; rewrite Er; cbn [app]; rewrite <- !app_assoc; reflexivity).
  rewrite Eh. change (univ_nl (write_nl os ?y)) with (readback os y). rewrite readback_app by (intros Hin; vm_compute in Hin; repeat destruct Hin as [Hin|Hin]; try discriminate; exact Hin).
  set (T := readback os (r ++ [CLOSE; LF; CLOSE])). unfold decode_file.
  assert (El : lines ((OPEN :: lit_1 ++ [COMMA; LF; OPEN] ++ hash_base64) ++ T) = [OPEN; 49; COMMA; LF] :: lines (OPEN :: hash_base64 ++ T)) by reflexivity.
  rewrite El. cbn [run_lines].
  assert (E1 : decode_line [OPEN; 49; COMMA; LF] init = Ok (mkst MParam [] [] [[VStr [49]]] (Some []) (Some [COMMA]))) by reflexivity.
  rewrite E1. cbn [wrap_err bind]. rewrite lines_first by discriminate. cbn [run_lines].
  assert (Ef : exists L, fst (first_line (OPEN :: hash_base64 ++ T)) = OPEN :: hash_base64 ++ L).
  { exists (fst (first_line T)). cbn [hash_base64 app first_line]. 
    change (OPEN =? LF) with false. cbv iota. repeat (cbn [first_line N.eqb Pos.eqb LF]; try match goal with |- context[first_line T] => destruct (first_line T) end). reflexivity. }
  destruct Ef as (L & ->). reflexivity.
Qed.
Lemma built_back os alnum fname comment (srcs out : folder) dname files b : B64.bytes b -> dget (dotted fname (extension_of alnum comment)) srcs = Some (TFile b) -> dget dname out = None ->
  exists bs x, base64_back os alnum srcs fname comment out dname files = Ok (dset dname (TFile bs) out, files ++ [dname]) /\
    utf8_decode (strip_bom bs) = Ok (write_nl os (built_text x)) /\ flat x = p_base64 ++ b64_encode b /\ big_text bs.
Proof.
  intros Hb Hs Ho. destruct (binary_built os b Hb) as (bs & x & W & H1 & H2 & H3). exists bs, x. split; [|auto].
  unfold base64_back, bin_read. rewrite Hs. unfold brace_write. rewrite W. rewrite put_file_ok by (left; exact Ho). reflexivity.
Qed.
