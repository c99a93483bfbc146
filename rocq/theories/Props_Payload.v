(** C54-C57: help texts, templates, pictures and the files copied as they are. *)
From Coq Require Import String.
From Verif Require Import PyBase PyText Utf Cp1251 Codecs B64 Brace Spec_Brace BraceMore Pipeline Spec_Stage ObjCode Payload Spec_Payload
  PayloadProofs PayloadEdit PayloadTmpl PayloadPic Props_Brace Props_Stage Props_Obj.
Open Scope list_scope.
Open Scope N_scope.

(** ** C54: help texts and HTML templates *)
(** Extraction writes the payload among the sources; a build from these sources, with the same record in
    the header, writes the same file and nothing else. *)
Theorem C54_help_restored : forall os uuid number fname field ext (src dest out : folder) (h : header) files e content,
  dget (dotted uuid number) src = e -> help_entry os e content -> ext <> s_bin -> dget field h = None ->
  dget (dotted fname ext) dest = None -> dget (dotted fname s_bin) dest = None -> dget (dotted uuid number) out = None ->
  exists dest' h', html_decode src uuid number dest fname field ext h = Ok (dest', h') /\
    dget (dotted fname ext) dest' = option_map TFile content /\
    (forall n, n <> dotted fname ext -> n <> dotted fname s_bin -> dget n dest' = dget n dest) /\
    (forall k, k <> field -> dget k h' = dget k h) /\
    forall (srcs : folder) (h2 : header),
      dget (dotted fname ext) srcs = dget (dotted fname ext) dest' -> dget (dotted fname s_bin) srcs = dget (dotted fname s_bin) dest' ->
      dget field h2 = dget field h' ->
      exists out' h3, html_encode os srcs fname uuid number out field ext h2 files
          = Ok (out', h3, files ++ match e with None => [] | Some _ => [dotted uuid number] end) /\
        dget (dotted uuid number) out' = e /\ (forall n, n <> dotted uuid number -> dget n out' = dget n out) /\
        (forall k, k <> field -> dget k h3 = dget k h2).
Proof. exact help_restored. Qed.
Print Assumptions C54_help_restored.

(** With an edited (or deleted) source file, the file built differs from the first one in the payload
    only, which holds the new bytes. *)
Theorem C54_help_edited : forall os uuid number fname field ext (src dest out : folder) (h : header) files data bs mark old (new : option (list N)),
  dget (dotted uuid number) src = Some (TFile bs) -> brace_bytes os data bs -> (N.of_nat (length bs) <= 1000000)%N -> In mark marks -> B64.bytes old ->
  slot1 data (mark ++ b64_encode old) data (mark ++ b64_encode old) ->
  ext <> s_bin -> dget (dotted fname ext) dest = None -> dget (dotted fname s_bin) dest = None -> dget (dotted uuid number) out = None ->
  (forall b, new = Some b -> B64.bytes b) ->
  exists dest' h', html_decode src uuid number dest fname field ext h = Ok (dest', h') /\
    dget (dotted fname ext) dest' = Some (TFile old) /\
    forall (srcs : folder) (h2 : header),
      dget (dotted fname ext) srcs = option_map TFile new -> dget (dotted fname s_bin) srcs = None -> dget field h2 = dget field h' ->
      exists out' h3 data2 mark2 bs2, html_encode os srcs fname uuid number out field ext h2 files = Ok (out', h3, files ++ [dotted uuid number]) /\
        dget (dotted uuid number) out' = Some (TFile bs2) /\ (forall n, n <> dotted uuid number -> dget n out' = dget n out) /\
        In mark2 marks /\ brace_bytes os data2 bs2 /\
        slot1 data (mark ++ b64_encode old) data2 (mark2 ++ b64_encode match new with Some b => b | None => [] end).
Proof. exact help_edited. Qed.
Print Assumptions C54_help_edited.

(** ... and the next extraction (of a file up to the limit) gives these bytes. *)
Theorem C54_edit_survives : forall os uuid number fname field ext (dest : folder) data0 s0 (out' : folder) data2 mark2 bs2 new,
  dget (dotted uuid number) out' = Some (TFile bs2) -> brace_bytes os data2 bs2 -> (N.of_nat (length bs2) <= 1000000)%N -> In mark2 marks -> B64.bytes new ->
  slot1 data0 s0 data2 (mark2 ++ b64_encode new) ->
  ext <> s_bin -> dget (dotted fname ext) dest = None -> dget (dotted fname s_bin) dest = None ->
  exists dest' h', html_decode out' uuid number dest fname field ext [] = Ok (dest', h') /\ dget (dotted fname ext) dest' = Some (TFile new).
Proof.
  intros os uuid number fname field ext dest data0 s0 out' data2 mark2 bs2 new Ho Hb Hl Hm Hn Hs He Hd1 Hd2.
  assert (S : slot data2 (mark2 ++ b64_encode new) data2 (mark2 ++ b64_encode new)).
  { destruct Hs as (a & b & c & l & t & _ & E). exists a, b, c, [], l, t. auto. }
  destruct (help_restored os uuid number fname field ext out' dest [] [] [] _ _ Ho (he_payload os data2 bs2 mark2 new Hb Hl Hm Hn S) He eq_refl Hd1 Hd2 eq_refl)
    as (dest' & h' & E & F & _). exists dest', h'. split; assumption.
Qed.
Print Assumptions C54_edit_survives.

(** A help file without a root (empty, or only line ends) is outside of the class: it is dropped by the
    build without an error. *)
Theorem C54_blank_refuted : forall os uuid number fname field ext bs, In bs [[]; [10]; [239; 187; 191; 10; 10]] ->
  exists h', html_decode [(dotted uuid number, TFile bs)] uuid number [] fname field ext [] = Ok ([], h') /\
    html_encode os [] fname uuid number [] field ext h' [] = Ok ([], h', []).
Proof.
  intros os uuid number fname field ext bs H.
  assert (R : brace_file_read cp1251_decode bs = Ok (DText []) /\ max_html <? N.of_nat (length bs) = false).
  { cbn [In] in H. destruct H as [<-|[<-|[<-|[]]]]; split; vm_compute; reflexivity. }
  destruct R as [R L]. exists [(field, VStr [])]. unfold html_decode. cbn [dget]. rewrite str_eqb_refl, L. unfold brace_read. cbn [dget]. rewrite str_eqb_refl, R.
  split; [reflexivity|]. unfold html_encode, bin_read. cbn [dget]. rewrite str_eqb_refl. reflexivity.
Qed.
Print Assumptions C54_blank_refuted.

(** ** C55: templates *)
(** The content of a template is restored byte for byte by a build from the sources that the extraction
    has written; the object's own header files (name.json, name.id.json) may be written next to them. *)
Theorem C55_template_restored : forall os alnum ty uuid fname comment (src dest out : folder) (h : header) files e,
  dget (dotted uuid s_zero) src = e -> tmpl_entry os (kind_of ty) e ->
  (kind_of ty = KBinary -> extension_of alnum comment <> s_c1b64 /\ extension_of alnum comment <> s_json) ->
  (forall x, dget (dotted fname x) dest = None) -> dget (dotted uuid s_zero) out = None -> dget s_html h = None ->
  exists dest' h', tmpl_out os alnum ty src uuid dest fname comment h = Ok (dest', h') /\
    (forall n, (forall x, x <> s_json -> x <> s_idjson -> n <> dotted fname x) -> dget n dest' = dget n dest) /\ (forall k, k <> s_html -> dget k h' = dget k h) /\
    forall (srcs : folder) (h2 : header), same_sources fname srcs dest' -> dget s_html h2 = dget s_html h' ->
      exists out' h3, tmpl_back os alnum ty srcs fname uuid out comment h2 files = Ok (out', h3, files ++ match e with None => [] | Some _ => [dotted uuid s_zero] end) /\
        dget (dotted uuid s_zero) out' = e /\ (forall n, n <> dotted uuid s_zero -> dget n out' = dget n out) /\ (forall k, k <> s_html -> dget k h3 = dget k h2).
Proof. exact template_restored. Qed.
Print Assumptions C55_template_restored.

(** A binary file placed among the sources is built into a file whose text is "{1,", the base64 text of
    exactly these bytes in braces, folded into lines, "}"; such a file is carried unchanged by every
    later cycle (it is a [big_text], a [tmpl_entry] of C55_template_restored). *)
Theorem C55_binary_built : forall os alnum fname comment (srcs out : folder) dname files b,
  B64.bytes b -> dget (dotted fname (extension_of alnum comment)) srcs = Some (TFile b) -> dget dname out = None ->
  exists bs x, base64_back os alnum srcs fname comment out dname files = Ok (dset dname (TFile bs) out, files ++ [dname]) /\
    utf8_decode (strip_bom bs) = Ok (write_nl os ([OPEN; 49; COMMA; LF; OPEN] ++ x ++ [CLOSE; LF; CLOSE])) /\
    flat x = p_base64 ++ b64_encode b /\ b64_decode (b64_encode b) = Ok b /\ tmpl_entry os KBinary (Some (TFile bs)).
Proof.
  intros os alnum fname comment srcs out dname files b Hb Hs Ho. destruct (built_back os alnum fname comment srcs out dname files b Hb Hs Ho) as (bs & x & A & B & C & D).
  exists bs, x. split; [exact A|]. split; [exact B|]. split; [exact C|]. split; [apply b64_roundtrip; exact Hb|]. right. exists bs. split; [reflexivity|exact D].
Qed.
Print Assumptions C55_binary_built.

(** A comment that ends with the word "c1b64": the untouched template is wrapped in base64 once more by
    every build. *)
Definition ascii_alnum (c : N) : bool := ((48 <=? c) && (c <=? 57)) || ((65 <=? c) && (c <=? 90)) || ((97 <=? c) && (c <=? 122)).
Definition small_big : list N := Eval vm_compute in utf8_bom ++ u "{1,"%string ++ [LF] ++ u "{#base64:AAAA}"%string ++ [LF] ++ u "}"%string.
Theorem C55_comment_refuted : exists dest' bs2,
  tmpl_entry Posix KBinary (Some (TFile small_big)) /\
  tmpl_out Posix ascii_alnum TBase64 [(dotted [65] s_zero, TFile small_big)] [65] [] [70] (u "file c1b64"%string) [] = Ok (dest', []) /\
  tmpl_back Posix ascii_alnum TBase64 dest' [70] [65] [] (u "file c1b64"%string) [] [] = Ok ([(dotted [65] s_zero, TFile bs2)], [], [dotted [65] s_zero]) /\
  bs2 <> small_big /\ (length small_big < length bs2)%nat.
Proof.
  eexists. eexists. split; [right; eexists; split; [reflexivity|eexists; split; vm_compute; reflexivity]|].
  split; [vm_compute; reflexivity|]. split; [vm_compute; reflexivity|]. split; [vm_compute; discriminate|apply Nat.ltb_lt; vm_compute; reflexivity].
Qed.
Print Assumptions C55_comment_refuted.
(** A comment that ends with the word "json": the header file of the template itself is taken for its
    data. *)
Theorem C55_comment_json_refuted : forall hdr, B64.bytes hdr -> exists dest' bs2 x,
  tmpl_out Posix ascii_alnum TBase64 [(dotted [65] s_zero, TFile small_big)] [65] [] [70] (u "json"%string) [] = Ok (dest', []) /\
  tmpl_back Posix ascii_alnum TBase64 (dset (dotted [70] s_json) (TFile hdr) dest') [70] [65] [] (u "json"%string) [] []
    = Ok ([(dotted [65] s_zero, TFile bs2)], [], [dotted [65] s_zero]) /\
  utf8_decode (strip_bom bs2) = Ok (write_nl Posix (built_text x)) /\ flat x = p_base64 ++ b64_encode hdr.
Proof.
  intros hdr Hh. set (dest' := [(dotted [70] s_c1b64, TFile small_big)] : folder).
  destruct (built_back Posix ascii_alnum [70] (u "json"%string) (dset (dotted [70] s_json) (TFile hdr) dest') [] (dotted [65] s_zero) [] hdr Hh) as (bs & x & A & B & C & D).
  { vm_compute. reflexivity. } { reflexivity. }
  exists dest', bs, x. split; [vm_compute; reflexivity|]. split; [|split; assumption]. unfold tmpl_back. rewrite A. reflexivity.
Qed.
Print Assumptions C55_comment_json_refuted.

(** A text template with the line ends of another platform is rewritten; one that is not UTF-8 makes the
    extraction fail. *)
Theorem C55_text_refuted :
  (exists dest', tmpl_out Posix ascii_alnum TText [(dotted [65] s_zero, TFile [97; 13; 10; 98])] [65] [] [70] [] [] = Ok (dest', []) /\
    tmpl_back Posix ascii_alnum TText dest' [70] [65] [] [] [] [] = Ok ([(dotted [65] s_zero, TFile [97; 10; 98])], [], [dotted [65] s_zero])) /\
  exists e, tmpl_out Posix ascii_alnum TText [(dotted [65] s_zero, TFile [224])] [65] [] [70] [] [] = Err e.
Proof. split; [eexists; split; vm_compute; reflexivity|]. eexists. vm_compute. reflexivity. Qed.
Print Assumptions C55_text_refuted.

(** ** C56: pictures and the splash picture *)
Theorem C56_picture_restored : forall os alnum uuid fname comment (src dest out : folder) (h : header) files e content,
  dget (dotted uuid s_zero) src = e -> picture_entry os e content -> dget s_info h = None ->
  dget (dotted fname (extension_of alnum comment)) dest = None -> dget (dotted uuid s_zero) out = None ->
  exists dest' h', picture_out alnum src uuid dest fname comment h = Ok (dest', h') /\
    dget (dotted fname (extension_of alnum comment)) dest' = option_map TFile content /\
    (forall n, n <> dotted fname (extension_of alnum comment) -> dget n dest' = dget n dest) /\
    (forall k, k <> s_info -> dget k h' = dget k h) /\
    forall (srcs : folder) (h2 : header), dget (dotted fname (extension_of alnum comment)) srcs = option_map TFile content -> dget s_info h2 = dget s_info h' ->
      exists out' h3, picture_back os alnum srcs fname uuid out comment h2 files = Ok (out', h3, files ++ match e with None => [] | Some _ => [dotted uuid s_zero] end) /\
        dget (dotted uuid s_zero) out' = e /\ (forall n, n <> dotted uuid s_zero -> dget n out' = dget n out) /\ (forall k, k <> s_info -> dget k h3 = dget k h2).
Proof. exact picture_restored. Qed.
Print Assumptions C56_picture_restored.

Theorem C56_picture_edited : forall os alnum uuid fname comment (src dest out : folder) (h : header) files data bs mark old new,
  dget (dotted uuid s_zero) src = Some (TFile bs) -> brace_bytes os data bs -> In mark marks -> B64.bytes old -> B64.bytes new ->
  picture1 data (mark ++ b64_encode old) data (mark ++ b64_encode old) ->
  dget (dotted fname (extension_of alnum comment)) dest = None -> dget (dotted uuid s_zero) out = None ->
  exists dest' h', picture_out alnum src uuid dest fname comment h = Ok (dest', h') /\
    dget (dotted fname (extension_of alnum comment)) dest' = Some (TFile old) /\
    forall (srcs : folder) (h2 : header), dget (dotted fname (extension_of alnum comment)) srcs = Some (TFile new) -> dget s_info h2 = dget s_info h' ->
      exists out' h3 data2 mark2 bs2, picture_back os alnum srcs fname uuid out comment h2 files = Ok (out', h3, files ++ [dotted uuid s_zero]) /\
        dget (dotted uuid s_zero) out' = Some (TFile bs2) /\ (forall n, n <> dotted uuid s_zero -> dget n out' = dget n out) /\
        In mark2 marks /\ brace_bytes os data2 bs2 /\ picture1 data (mark ++ b64_encode old) data2 (mark2 ++ b64_encode new).
Proof. exact picture_edited. Qed.
Print Assumptions C56_picture_edited.

Theorem C56_splash_restored : forall os uuid number elem field (src dest out : folder) (h : header) files e content,
  dget (dotted uuid number) src = e ->
  (picture_entry os e content \/ (content = None /\ exists data bs, e = Some (TFile bs) /\ brace_bytes os data bs /\ picture_blank data)) -> dget field h = None ->
  dget elem dest = None -> dget (dotted uuid number) out = None ->
  exists dest' h', image_out src uuid number dest elem field h = Ok (dest', h') /\
    dget elem dest' = option_map TFile content /\ (forall n, n <> elem -> dget n dest' = dget n dest) /\ (forall k, k <> field -> dget k h' = dget k h) /\
    forall (srcs : folder) (h2 : header), dget elem srcs = option_map TFile content -> dget field h2 = dget field h' ->
      exists out' h3, image_back os srcs uuid number out elem field h2 files = Ok (out', h3, files ++ match e with None => [] | Some _ => [dotted uuid number] end) /\
        dget (dotted uuid number) out' = e /\ (forall n, n <> dotted uuid number -> dget n out' = dget n out) /\ (forall k, k <> field -> dget k h3 = dget k h2).
Proof. exact image_restored. Qed.
Print Assumptions C56_splash_restored.

(** A common picture whose file has no payload is lost by a build: no source file is written, and without
    one the build writes nothing, although the record is in the header. *)
Theorem C56_blank_picture_refuted : forall os alnum uuid fname comment data bs files, brace_bytes os data bs -> picture_blank data ->
  exists h', picture_out alnum [(dotted uuid s_zero, TFile bs)] uuid [] fname comment [] = Ok ([], h') /\ dget s_info h' = Some (VList data) /\
    picture_back os alnum [] fname uuid [] comment h' files = Ok ([], h', files).
Proof.
  intros os alnum uuid fname comment data bs files Hb Hp. exists [(s_info, VList data)].
  assert (R : brace_read [(dotted uuid s_zero, TFile bs)] (dotted uuid s_zero) = Ok (VList data)) by (apply (brace_read_bytes _ _ _ _ _ Hb); cbn [dget]; rewrite str_eqb_refl; reflexivity).
  unfold picture_out. rewrite R, (pic_blank _ Hp). cbn [bind wrap]. split; [reflexivity|]. split; reflexivity.
Qed.
Print Assumptions C56_blank_picture_refuted.

(** ** C57: files and folders copied as they are *)
(** Information files of an object, predefined data, XDTO packages; both ways of copying. *)
Theorem C57_file_restored : forall sname dname (src dest out : folder) files e,
  dget sname src = e -> (e = None \/ exists bs, e = Some (TFile bs)) -> dget dname dest = None -> dget sname out = None ->
  (exists dest', copy_out src sname dest dname = Ok dest' /\ dget dname dest' = e /\ (forall n, n <> dname -> dget n dest' = dget n dest) /\
    forall srcs, dget dname srcs = dget dname dest' ->
      exists out', copy_back srcs dname out sname files = Ok (out', files ++ match e with None => [] | Some _ => [sname] end) /\
        dget sname out' = e /\ (forall n, n <> sname -> dget n out' = dget n out)) /\
  (exists dest', bin_out src sname dest dname = Ok dest' /\ dget dname dest' = e /\ (forall n, n <> dname -> dget n dest' = dget n dest) /\
    forall srcs, dget dname srcs = dget dname dest' ->
      exists out', bin_back srcs dname out sname files = Ok (out', files ++ match e with None => [] | Some _ => [sname] end) /\
        dget sname out' = e /\ (forall n, n <> sname -> dget n out' = dget n out)).
Proof. intros. split; [apply copied_restored|apply binary_restored]; assumption. Qed.
Print Assumptions C57_file_restored.

(** The folder of a WS reference. *)
Theorem C57_tree_restored : forall sname name cls (src dest out : folder) files e,
  dget sname src = e -> (e = None \/ exists fo, e = Some (TDir fo)) -> dget name dest = None -> dget sname out = None ->
  exists dest', tree_out src sname dest name cls = Ok dest' /\ (forall n, n <> name -> dget n dest' = dget n dest) /\
    forall srcs, dget name srcs = dget name dest' ->
      exists out', tree_back srcs name cls out sname files = Ok (out', files ++ match e with None => [] | Some _ => [sname] end) /\
        dget sname out' = e /\ (forall n, n <> sname -> dget n out' = dget n out).
Proof. exact tree_restored. Qed.
Print Assumptions C57_tree_restored.

(** ** non-vacuity *)
Lemma scalars_b s : forallb scalarb s = true -> Forall scalar s.
Proof. intros H. apply Forall_forall. intros x Hx. rewrite forallb_forall in H. apply H in Hx. apply andb_true_iff in Hx. destruct Hx as [A B]. split; [apply N.ltb_lt; exact A|apply negb_true_iff; exact B]. Qed.
Lemma bytes_b s : forallb (fun c => c <? 256) s = true -> B64.bytes s.
Proof. intros H. apply Forall_forall. intros x Hx. rewrite forallb_forall in H. apply H in Hx. apply N.ltb_lt. exact Hx. Qed.
Ltac scalar_solve := apply scalars_b; vm_compute; reflexivity.
Ltac bytes_solve := apply bytes_b; vm_compute; reflexivity.
Definition ex_content : list N := Eval vm_compute in u "<html>1</html>"%string.
Definition ex_help : list val := [VList [VStr [52]; VStr [49]; VStr [34; 114; 117; 34]; VList [VStr (pp_base64 ++ b64_encode ex_content)]; VStr [48]]].
Definition ex_help_bytes : list N := Eval vm_compute in snd (brace_file_write Posix ex_help []).
Lemma ex_help_ok : brace_bytes Posix ex_help ex_help_bytes.
Proof.
  split; [|split; [|vm_compute; reflexivity]].
  - split; [discriminate|]. split; [|cbn; discriminate]. constructor; [|constructor]. eexists. split; [reflexivity|]. apply o_list; [discriminate|reflexivity|].
    apply e_leaf; [leaf_solve; plain_solve|]. apply e_leaf; [leaf_solve; plain_solve|]. apply e_leaf; [leaf_solve|].
    + right. exists [114; 117]. split; [reflexivity|]. split; [dsolve|in_solve].
    + apply e_obj; [|apply e_leaf; [leaf_solve; plain_solve|apply e_nil]]. apply o_b64. right. split; [vm_compute; reflexivity|]. unfold payload_char. fin_solve.
  - scalar_solve.
Qed.
Example C54_hypotheses_met : help_entry Posix (Some (TFile ex_help_bytes)) (Some ex_content) /\
  slot1 ex_help (pp_base64 ++ b64_encode ex_content) ex_help (pp_base64 ++ b64_encode ex_content).
Proof.
  split.
  - apply (he_payload Posix ex_help ex_help_bytes pp_base64 ex_content); [exact ex_help_ok|apply N.leb_le; vm_compute; reflexivity|left; reflexivity|bytes_solve|].
    exists (VStr [52]), (VStr [49]), (VStr [34; 114; 117; 34]), [], [VStr [48]], []. split; reflexivity.
  - exists (VStr [52]), (VStr [49]), (VStr [34; 114; 117; 34]), [VStr [48]], []. split; reflexivity.
Qed.
(** deleted, the help text is empty in the next build *)
Example C54_example : exists dest' h' out' h3 bs2,
  html_decode [(dotted [65] [48], TFile ex_help_bytes)] [65] [48] [] [70] s_html s_html [] = Ok (dest', h') /\
  dget (dotted [70] s_html) dest' = Some (TFile ex_content) /\
  html_encode Posix [(dotted [70] s_html, TFile [60; 98; 62])] [70] [65] [48] [] s_html s_html h' [] = Ok (out', h3, [dotted [65] [48]]) /\
  dget (dotted [65] [48]) out' = Some (TFile bs2) /\ bs2 <> ex_help_bytes.
Proof. do 5 eexists. repeat (split; [vm_compute; reflexivity|]). vm_compute. discriminate. Qed.
Example C55_hypotheses_met : tmpl_entry Posix (kind_of TBase64) (Some (TFile small_big)) /\ tmpl_entry Posix (kind_of TText) (Some (TFile [208; 176; 10])) /\
  tmpl_entry Posix (kind_of THtml) (Some (TFile ex_help_bytes)) /\ extension_of ascii_alnum (u "archive zip"%string) = u "zip"%string.
Proof.
  split; [right; eexists; split; [reflexivity|eexists; split; vm_compute; reflexivity]|]. split; [|split].
  - right. eexists. split; [reflexivity|]. exists [1072; 10]. split; [vm_compute; reflexivity|in_solve].
  - exists (Some ex_content). apply C54_hypotheses_met.
  - vm_compute. reflexivity.
Qed.
Example C55_example : exists bs, base64_back Posix ascii_alnum [(dotted [70] (u "zip"%string), TFile [80; 75; 3; 4])] [70] (u "archive zip"%string) [] [66] [] = Ok ([([66], TFile bs)], [[66]]) /\
  strip_bom bs = u "{1,"%string ++ [LF] ++ u "{#base64:UEsDBA==}"%string ++ [LF] ++ u "}"%string.
Proof. eexists. split; vm_compute; reflexivity. Qed.
Definition ex_pic : list val := [VList [VStr [52]; VStr [49]; VList [VList [VStr (s_data ++ b64_encode ex_content)]; VStr [48]]]].
Definition ex_pic_bytes : list N := Eval vm_compute in snd (brace_file_write Posix ex_pic []).
Lemma ex_pic_ok : brace_bytes Posix ex_pic ex_pic_bytes.
Proof.
  split; [|split; [|vm_compute; reflexivity]].
  - split; [discriminate|]. split; [|cbn; discriminate]. constructor; [|constructor]. eexists. split; [reflexivity|]. apply o_list; [discriminate|reflexivity|].
    apply e_leaf; [leaf_solve; plain_solve|]. apply e_leaf; [leaf_solve; plain_solve|]. apply e_obj; [|apply e_nil]. apply o_list; [discriminate|exact I|].
    apply e_obj; [|apply e_leaf; [leaf_solve; plain_solve|apply e_nil]]. apply o_list; [discriminate|reflexivity|]. apply e_leaf; [leaf_solve; plain_solve|apply e_nil].
  - scalar_solve.
Qed.
Example C56_hypotheses_met : picture_entry Posix (Some (TFile ex_pic_bytes)) (Some ex_content) /\ picture1 ex_pic (s_data ++ b64_encode ex_content) ex_pic (s_data ++ b64_encode ex_content) /\
  picture_blank [VList [VStr [52]; VStr [49]; VList [VList [VStr []]; VStr [48]]]].
Proof.
  split; [|split].
  - apply (pe_payload Posix ex_pic ex_pic_bytes s_data ex_content); [exact ex_pic_ok|right; right; left; reflexivity|bytes_solve|].
    exists (VStr [52]), (VStr [49]), [], [VStr [48]], [], []. split; reflexivity.
  - exists (VStr [52]), (VStr [49]), [VStr [48]], [], []. split; reflexivity.
  - eexists. eexists. split; [reflexivity|]. eexists. split; [reflexivity|]. right. eexists. eexists. split; [reflexivity|]. right. eexists. eexists. split; [reflexivity|]. right. reflexivity.
Qed.
Example C57_example : exists d, tree_out [([87], TDir [([119], TFile [1])])] [87] [] [78] [67] = Ok d /\ tree_back d [78] [67] [] [87] [] = Ok ([([87], TDir [([119], TFile [1])])], [[87]]).
Proof. eexists. split; vm_compute; reflexivity. Qed.

(** A binary template that is not kept as it is (its text does not begin with "{1," and the payload on a
    line of its own) has its payload taken out of the file: the file among the sources has exactly the
    bytes whose base64 text stood there. *)
Theorem C55_binary_read : forall alnum (src dest : folder) sname fname comment b x r1 r2 r3,
  brace_read src sname = Ok (VList (VList (x :: VList (VStr (p_base64 ++ b64_encode b) :: r1) :: r2) :: r3)) -> B64.bytes b -> (forall d, dget (dotted fname (extension_of alnum comment)) dest <> Some (TDir d)) ->
  exists dest', base64_out alnum src sname dest fname comment = Ok dest' /\ dget (dotted fname (extension_of alnum comment)) dest' = Some (TFile b) /\
    forall n, n <> dotted fname (extension_of alnum comment) -> dget n dest' = dget n dest.
Proof.
  intros alnum src dest sname fname comment b x r1 r2 r3 E Hb Hd. exists (dset (dotted fname (extension_of alnum comment)) (TFile b) dest).
  split.
  - unfold base64_out. rewrite E. cbn [vget bind nth_error when_true vtruthy]. unfold when_true.
    cbn [vget bind nth_error vtruthy p_base64 app]. change (skipn 8 _) with (b64_encode b). rewrite (@b64_roundtrip b Hb). cbn [bind vset set_nth nth_error].
    unfold put_file. destruct (dget (dotted fname (extension_of alnum comment)) dest) as [[?|d]|] eqn:Ed; try reflexivity. exfalso. exact (Hd d eq_refl).
  - split; [apply dget_dset_same|]. intros n Hn. apply dget_dset_other. congruence.
Qed.
Print Assumptions C55_binary_read.
Example C55_read_live : exists dest', base64_out ascii_alnum [([65], TFile (utf8_bom ++ u "{2,"%string ++ [LF] ++ u "{#base64:QUJD}"%string ++ [LF] ++ u "}"%string))] [65] [] [70] [] = Ok dest' /\ exists n, dget n dest' = Some (TFile (u "ABC"%string)).
Proof. eexists. split; [vm_compute; reflexivity|]. exists (dotted [70] (u "bin"%string)). vm_compute. reflexivity. Qed.
