(** C51, C52: the modules of an object, from a container folder to the sources and back. *)
From Coq Require Import String.
From Verif Require Import PyBase PyText Utf Cp1251 Codecs Brace Spec_Brace BraceMore Pipeline Directives Spec_Misc Spec_Stage ObjCode Spec_Obj ObjCodeProofs ObjCodeMain ObjCodeEdit UpdateDictProofs Props_Brace Props_Stage.
Open Scope list_scope.
Open Scope N_scope.

(** C51: decode_code and write_decode_code write the modules of an object among the sources; from
    them encode_code and write_encode_code (with a header that holds the same module records) build
    the same entries, list exactly the modules that were there, and touch nothing else. *)
Theorem C51_modules_restored : forall os dirs uuid fname ext (src : folder) (h0 : header) (dest0 build0 : folder),
  NoDup (map fst ext) -> NoDup (map snd ext) ->
  (forall n s, In (n, s) ext -> module_entry os dirs (dget (dotted uuid s) src)) ->
  (forall n, In n (map fst ext) -> dget (k_info n) h0 = None) ->
  (forall n x, In n (map fst ext) -> dget (source_name fname n x) dest0 = None) ->
  (forall s, In s (map snd ext) -> dget (dotted uuid s) build0 = None) ->
  exists h codes srcs, decode_code uuid src ext dirs h0 [] = Ok (h, codes) /\ write_decode_code os h codes fname dest0 = Ok srcs /\
    (forall k, (forall n, In n (map fst ext) -> k <> k_info n /\ k <> k_enc n) -> dget k h = dget k h0) /\
    forall h2, (forall n, In n (map fst ext) -> dget (k_info n) h2 = dget (k_info n) h /\ dget (k_enc n) h2 = dget (k_enc n) h) ->
    exists codes2 out, encode_code srcs fname ext h2 [] = Ok codes2 /\
      write_encode_code os uuid h2 codes2 ext dirs build0 [] = Ok (out, listed uuid src ext) /\
      (forall n s, In (n, s) ext -> same_entry (dget (dotted uuid s) src) (dget (dotted uuid s) out)) /\
      (forall x, ~ In x (listed uuid src ext) -> dget x out = dget x build0).
Proof. exact modules_restored. Qed.
Print Assumptions C51_modules_restored.

(** An encrypted module (a folder with "info" and "image" but no "text") is not in the class above: it
    is dropped without an error and replaced by an empty module. *)
Theorem C51_encrypted_refuted : forall os uuid fname n s ibs image, brace_text os ibs ->
  let src := [(dotted uuid s, TDir [(s_info, TFile ibs); (s_image, TFile image)])] in
  exists h codes codes2, decode_code uuid src [(n, s)] false [] [] = Ok (h, codes) /\
    write_decode_code os h codes fname [] = Ok [] /\
    encode_code [] fname [(n, s)] h [] = Ok codes2 /\
    write_encode_code os uuid h codes2 [(n, s)] false [] [] =
      Ok ([(dotted uuid s, TDir [(s_info, TFile ibs); (s_text, TFile [])])], [dotted uuid s]).
Proof.
  intros os uuid fname n s ibs image (data & Hc & Hsc & Hw) src.
  destruct (file_roundtrip os cp1251_decode [] Hc Hsc) as (ibs' & Hw' & Hr). rewrite Hw in Hw'. injection Hw' as <-.
  set (h := [(k_info n, VList data); (k_enc n, VStr e_utf8)]).
  assert (Gi : dget (k_info n) h = Some (VList data)) by (unfold h; cbn [dget]; rewrite str_eqb_refl; reflexivity).
  assert (Ge : dget (k_enc n) h = Some (VStr e_utf8)).
  { unfold h. cbn [dget]. destruct (str_eqb (k_enc n) (k_info n)) eqn:E; [apply str_eqb_spec in E; symmetry in E; apply k_info_enc in E; destruct E|]. rewrite str_eqb_refl. reflexivity. }
  exists h, [(n, CNone)], [(n, CText [])]. split; [|split; [reflexivity|split]].
  - cbn [decode_code dget]. unfold decode_one, src. cbn [dget]. rewrite str_eqb_refl. unfold brace_read. cbn [dget]. change (str_eqb s_info s_info) with true. cbn match. rewrite Hr. cbn [bind].
    unfold read_raw_code, txt_read. cbn [dget]. change (str_eqb s_text s_info) with false. change (str_eqb s_text s_image) with false. cbn match. cbn [bind]. cbn [dset].
    destruct (str_eqb (k_enc n) (k_info n)) eqn:E; [apply str_eqb_spec in E; symmetry in E; apply k_info_enc in E; destruct E|]. reflexivity.
  - cbn [encode_code]. unfold encode_one. rewrite Gi. destruct data as [|d data]; [destruct Hc as [Hc _]; congruence|]. cbn [vtruthy].
    unfold enc_of, enc_encrypted. rewrite Ge. reflexivity.
  - cbn [write_encode_code dget]. rewrite str_eqb_refl. unfold encode_file, enc_of. rewrite Ge, Gi. cbn [bind dget]. unfold brace_write. rewrite Hw. unfold put_file. cbn [dget dset bind]. reflexivity.
Qed.
Print Assumptions C51_encrypted_refuted.

(** Line ends that are not those of the platform are not kept: a module with "\r\n" ends, taken apart
    and built on a POSIX system, has "\n" ends. *)
Theorem C51_line_ends_refuted : exists uuid fname n s bs h codes srcs codes2 out,
  utf8_decode bs = Ok bs /\
  decode_code uuid [(dotted uuid s, TFile bs)] [(n, s)] false [] [] = Ok (h, codes) /\
  write_decode_code Posix h codes fname [] = Ok srcs /\ encode_code srcs fname [(n, s)] h [] = Ok codes2 /\
  write_encode_code Posix uuid h codes2 [(n, s)] false [] [] = Ok (out, [dotted uuid s]) /\
  dget (dotted uuid s) out <> Some (TFile bs).
Proof.
  exists [48], [70], [97], [50], [65; 13; 10; 66]. do 5 eexists.
  split; [reflexivity|]. split; [vm_compute; reflexivity|]. split; [vm_compute; reflexivity|]. split; [vm_compute; reflexivity|]. split; [vm_compute; reflexivity|].
  vm_compute. discriminate.
Qed.
Print Assumptions C51_line_ends_refuted.

(** C52: whatever is in the module sources, a successful build contains for each module with a record
    in the header exactly the text of its source file (empty when the file is missing), in the
    recorded encoding and with the line ends of the platform; binary modules byte for byte; and for
    modules without a record it leaves the container folder as it was. *)
Theorem C52_edited_modules : forall os dirs uuid fname ext (srcs : folder) (h : header) (build0 : folder) codes out files,
  NoDup (map fst ext) -> NoDup (map snd ext) ->
  encode_code srcs fname ext h [] = Ok codes -> write_encode_code os uuid h codes ext dirs build0 [] = Ok (out, files) ->
  forall n s, In (n, s) ext ->
    (truthy_at h n = false /\ dget (dotted uuid s) out = dget (dotted uuid s) build0) \/
    (truthy_at h n = true /\ exists bs, module_bytes (dget (dotted uuid s) out) bs /\
       if is_encrypted (enc_name h n) then dget (source_name fname n (enc_name h n)) srcs = Some (TFile bs)
       else exists t t2, source_text (dget (source_name fname n s_bsl) srcs) t /\ (if dirs then hidden t t2 else t2 = t) /\ text_in os (enc_name h n) bs t2).
Proof. exact edited_modules. Qed.
Print Assumptions C52_edited_modules.

(** A character that the recorded encoding does not have stops the build: nothing is replaced. *)
Theorem C52_not_encodable : forall os dirs uuid fname ext (srcs : folder) (h : header) (build0 : folder) n s sb t,
  NoDup (map fst ext) -> NoDup (map snd ext) -> In (n, s) ext -> truthy_at h n = true -> dget (k_enc n) h = Some (VStr n_1251) ->
  dget (source_name fname n s_bsl) srcs = Some (TFile sb) -> utf8_decode (strip_bom sb) = Ok t ->
  (exists c, In c t /\ forall b, cp1251_char b <> Some c) ->
  forall codes out files, encode_code srcs fname ext h [] = Ok codes -> write_encode_code os uuid h codes ext dirs build0 [] <> Ok (out, files).
Proof.
  intros os dirs uuid fname ext srcs h build0 n s sb t N1 N2 Hi Ht He Hg Hd (c & Hc & Hno) codes out files H1 H2.
  destruct (edited_modules _ _ _ _ _ _ _ _ _ _ _ N1 N2 H1 H2 n s Hi) as [[F _]|(_ & bs & _ & K)]; [congruence|].
  unfold enc_name, enc_of in K. rewrite He in K. change (is_encrypted n_1251) with false in K. cbn match in K. destruct K as (t0 & t2 & St & Hh & Ti).
  rewrite Hg in St. cbn [source_text] in St. destruct St as (x & Hx & ->). rewrite Hd in Hx. injection Hx as <-.
  assert (Hall : forall y bs, cp1251_decode bs = Ok y -> forall z, In z y -> exists b, cp1251_char b = Some z).
  { clear. intros y bs. revert y. induction bs as [|b bs IH]; intros y H z Hz; cbn [cp1251_decode] in H; [injection H as <-; destruct Hz|].
    destruct (cp1251_char b) as [w|] eqn:E; [|discriminate]. destruct (cp1251_decode bs) as [r|] eqn:Er; [|discriminate]. injection H as <-.
    destruct Hz as [<-|Hz]; [exists b; exact E|eapply IH; [reflexivity|exact Hz]]. }
  destruct Ti as [[A _]|[[A _]|[_ A]]]; [discriminate|discriminate|].
  assert (In1 : forall z w, In z w -> z <> CR -> z <> LF -> In z (univ_nl w)).
  { clear. intros z w. remember (length w) as k eqn:Ek. assert (Hk : (length w <= k)%nat) by lia. clear Ek. revert w Hk. induction k as [|k IH]; intros w Hk Hz H1 H2; destruct w as [|a w]; cbn [length] in Hk; try lia; try (destruct Hz; fail).
    destruct (N.eq_dec a CR) as [->|Ha].
    - destruct Hz as [Hz|Hz]; [congruence|]. cbn [univ_nl]. destruct w as [|b w]; [destruct Hz|]. rewrite N.eqb_refl.
      destruct (N.eqb_spec b LF) as [->|Hb]; right; [destruct Hz as [Hz|Hz]; [congruence|]; apply IH; cbn [length] in Hk; auto; lia|apply IH; auto; lia].
    - destruct w as [|b w]; [destruct Hz as [<-|[]]; cbn [univ_nl]; replace (a =? CR) with false by lia; left; reflexivity|].
      assert (E : univ_nl (a :: b :: w) = a :: univ_nl (b :: w)) by (cbn [univ_nl]; replace (a =? CR) with false by lia; reflexivity). rewrite E.
      destruct Hz as [->|Hz]; [left; reflexivity|right; apply IH; auto; lia]. }
  assert (In2 : forall z w, In z w -> z <> LF -> In z (write_nl os w)).
  { clear. intros z w. induction w as [|a w IH]; intros Hz H; [destruct Hz|]. rewrite write_nl_cons. apply in_or_app. destruct Hz as [->|Hz]; [left|right; apply IH; assumption].
    replace (z =? LF) with false by lia. left. reflexivity. }
  assert (In3 : In c t2).
  { assert (Hu : In c (univ_nl t)).
    { apply In1; [exact Hc| |]; intros ->; [apply (Hno 13)|apply (Hno 10)]; reflexivity. }
    destruct dirs; [|subst t2; exact Hu]. clear - Hu Hh. induction Hh as [|d r y Hd Hh IH|a x y Ha Hh IH]; [destruct Hu| |].
    - destruct Hu as [<-|Hu]; [left; reflexivity|right; apply in_or_app; right; apply IH; exact Hu].
    - destruct Hu as [<-|Hu]; [left; reflexivity|right; apply IH; exact Hu]. }
  destruct (Hall _ _ A c) as [b Hb]; [|exact (Hno b Hb)]. apply In2; [exact In3|]. intros ->. apply (Hno 10). reflexivity.
Qed.
Print Assumptions C52_not_encodable.

(** ** non-vacuity *)
Definition om_mod1 : list N := Eval vm_compute in utf8_bom ++ match utf8_encode (u "Процедура А()"%string ++ [10] ++ u "КонецПроцедуры"%string) with Ok b => b | _ => [] end.
Definition om_mod2 : list N := Eval vm_compute in match cp1251_encode (u "Процедура Б()"%string) with Ok b => b | _ => [] end.
Definition om_ext : list (list N * list N) := Eval vm_compute in [(u "obj"%string, [48]); (u "mgr"%string, [50]); (u "con"%string, [51]); (u "seance"%string, [52])].
Definition om_uuid : list N := Eval vm_compute in u "42d5"%string.
Definition om_src : folder := [(dotted om_uuid [48], TDir [(s_info, TFile ex_brace); (s_text, TFile om_mod1)]); (dotted om_uuid [50], TFile om_mod2); (dotted om_uuid [51], TFile [152; 255])].
Lemma native_posix t : ~ In CR t -> native Posix t.
Proof. intros H. exists t. split; [|exact H]. clear H. induction t as [|c t IH]; [reflexivity|]. rewrite write_nl_cons, <- IH. destruct (N.eqb_spec c LF) as [->|]; reflexivity. Qed.
Example C51_hypotheses_met : NoDup (map fst om_ext) /\ NoDup (map snd om_ext) /\
  (forall n s, In (n, s) om_ext -> module_entry Posix false (dget (dotted om_uuid s) om_src)).
Proof.
  split; [apply nodup_strs; reflexivity|]. split; [apply nodup_strs; reflexivity|].
  intros n s H. destruct H as [H|[H|[H|[H|[]]]]]; injection H as <- <-.
  - exists ex_brace, om_mod1. split; [exists ex_data; split; [exact ex_data_canonical|split; [exact ex_data_scalar|reflexivity]]|].
    split; [|split; [reflexivity|split; [reflexivity|]]].
    + right. eexists. split; [apply mt_utf8; vm_compute; reflexivity|]. split; [|discriminate]. apply native_posix. in_solve.
    + intros n H1 H2. cbn [dget]. apply str_eqb_neq in H1, H2. change s_info with f_info. change s_text with f_text. rewrite H1, H2. reflexivity.
  - right. eexists. split; [eapply mt_cp1251; [vm_compute; reflexivity|vm_compute; reflexivity]|]. split; [|discriminate]. apply native_posix. in_solve.
  - left. split; eexists; vm_compute; reflexivity.
  - exact I.
Qed.
(** the hiding of directives is not vacuous either *)
Fixpoint all_hidden_b (x : list N) : bool :=
  match x with
  | [] => true
  | c :: r => (negb (c =? 10) || (negb (directive_at r) && (negb (marked_at r) || directive_at (skipn (length marker) r)))) && all_hidden_b r
  end.
Lemma all_hidden_ok x : all_hidden_b x = true -> all_hidden x.
Proof.
  induction x as [|c x IH]; intros H.
  - split; [intros d Hd ([|? ?] & b & E); discriminate|intros [|? ?] c r E; discriminate].
  - cbn [all_hidden_b] in H. apply andb_true_iff in H. destruct H as [H1 H2]. destruct (IH H2) as [A B]. split.
    + intros d Hd (a & b & E). destruct a as [|a0 a].
      * cbn [app] in E. injection E as -> ->. cbn [N.eqb Pos.eqb negb orb] in H1. apply andb_true_iff in H1. destruct H1 as [H1 _].
        assert (directive_at (d ++ b) = true) as K by (apply directive_at_spec; exists d, b; auto). rewrite K in H1. discriminate.
      * injection E as -> ->. apply (A d Hd). exists a, b. reflexivity.
    + intros a c0 r E Hc. destruct a as [|a0 a].
      * cbn [app] in E. assert (c = 10) as -> by congruence. assert (x = marker ++ c0 :: r) as -> by (unfold marker; unfold hide_mark in E; congruence). cbn [N.eqb Pos.eqb negb orb] in H1. apply andb_true_iff in H1. destruct H1 as [_ H1].
        assert (M : marked_at (marker ++ c0 :: r) = true).
        { unfold marked_at. rewrite starts_app, skipn_app, skipn_all, Nat.sub_diag. cbn [app skipn andb]. destruct Hc as [<-|[<-|[<-|[]]]]; reflexivity. }
        rewrite M in H1. cbn [negb orb] in H1. rewrite skipn_app, skipn_all, Nat.sub_diag in H1. cbn [app skipn] in H1. apply directive_at_spec in H1.
        destruct H1 as (d & r' & Hd & Ed). exists d, r'. auto.
      * injection E as -> ->. apply (B a c0 r eq_refl Hc).
Qed.
Example C51_hidden_met : exists bs, module_file Posix true bs /\ exists t, utf8_decode bs = Ok t /\ uncomment_directives t <> t.
Proof.
  exists (match utf8_encode (u "А = 1;"%string ++ [10] ++ u "// v8unpack #Область Б"%string ++ [10]) with Ok b => b | _ => [] end). split.
  - right. eexists. split; [apply mt_utf8; vm_compute; reflexivity|]. split; [apply native_posix; in_solve|]. intros _. apply all_hidden_ok. vm_compute. reflexivity.
  - eexists. split; [vm_compute; reflexivity|]. vm_compute. discriminate.
Qed.
(** an edited module: recorded as windows-1251, edited in a UTF-8 editor that adds a byte order mark *)
Example C52_example : exists codes out, let ext := [(u "obj"%string, [48])] in
  let h := [(k_info (u "obj"%string), VStr s_file); (k_enc (u "obj"%string), VStr e_cp1251)] in
  encode_code [(source_name [70] (u "obj"%string) s_bsl, TFile (utf8_bom ++ [208; 176; 13; 10]))] [70] ext h [] = Ok codes /\
  write_encode_code Windows om_uuid h codes ext false [] [] = Ok (out, [dotted om_uuid [48]]) /\ dget (dotted om_uuid [48]) out = Some (TFile [224; 13; 10]).
Proof. do 2 eexists. split; [vm_compute; reflexivity|]. split; [vm_compute; reflexivity|]. vm_compute. reflexivity. Qed.
