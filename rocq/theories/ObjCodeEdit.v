(** What is built from edited module sources (ObjCode.v). *)
From Coq Require Import String.
From Verif Require Import PyBase PyText Utf Cp1251 Codecs Brace Spec_Brace Pipeline Directives Spec_Misc Spec_Stage ObjCode Spec_Obj ObjCodeProofs ObjCodeMain.
Open Scope list_scope.
Open Scope N_scope.

Lemma hidden_comment x : hidden x (comment_directives x).
Proof.
  induction x as [|c x IH]; [constructor|]. cbn [comment_directives]. destruct (N.eqb_spec c LF) as [->|Hc]; cbn [andb].
  - destruct (directive_at x) eqn:E.
    + apply directive_at_spec in E. destruct E as (d & r & Hd & ->). apply hi_dir; assumption.
    + apply hi_other; [|exact IH]. intros _ d r Hd ->. assert (directive_at (d ++ r) = true); [|congruence]. apply directive_at_spec. exists d, r. auto.
  - apply hi_other; [|exact IH]. intros ->. exfalso. apply Hc. reflexivity.
Qed.
Lemma scalar_comment x : Forall scalar x -> Forall scalar (comment_directives x).
Proof.
  induction 1 as [|c x Hc Hx IH]; [constructor|]. cbn [comment_directives]. destruct ((c =? LF) && directive_at x).
  - constructor; [split; reflexivity|]. apply Forall_app. split; [|exact IH]. rewrite Forall_forall. intros y Hy.
    assert (F : forallb (fun c => (c <? 1114112) && negb (is_surrogate c)) marker = true) by reflexivity. rewrite forallb_forall in F. specialize (F y Hy).
    apply andb_true_iff in F. destruct F as [F1 F2]. split; [lia|]. destruct (is_surrogate y); [discriminate|reflexivity].
  - constructor; assumption.
Qed.
Lemma store_text os e t bs : Forall scalar t -> text_store os e t = Ok bs -> text_in os e bs t.
Proof.
  intros Hs H. unfold text_store, codec_encode in H. pose proof (scalar_write os t Hs) as Hw.
  destruct (str_eqb e e_utf8) eqn:E1; [apply str_eqb_spec in E1; subst e|].
  { left. split; [reflexivity|]. apply utf8_encode_decode; assumption. }
  destruct (str_eqb e e_utf8sig) eqn:E2; [apply str_eqb_spec in E2; subst e|].
  { right; left. split; [reflexivity|]. unfold utf8sig_encode in H. destruct (utf8_encode (write_nl os t)) as [r|] eqn:Er; [|discriminate]. injection H as <-.
    exists r. split; [reflexivity|]. apply utf8_encode_decode; assumption. }
  destruct (str_eqb e e_cp1251) eqn:E3; [apply str_eqb_spec in E3; subst e|discriminate].
  right; right. split; [reflexivity|]. apply cp1251_encode_decode. exact H.
Qed.

Lemma NoDup_app_one {A} (l : list A) x : NoDup l -> ~ In x l -> NoDup (l ++ [x]).
Proof.
  induction l as [|a l IH]; intros H Hx; cbn [app]; [constructor; [intros []|constructor]|]. inversion H as [|? ? Ha Hl]; subst. constructor.
  - rewrite in_app_iff. intros [H1|[H1|[]]]; [exact (Ha H1)|]. apply Hx. left. symmetry. exact H1.
  - apply IH; [exact Hl|]. intros H1. apply Hx. right. exact H1.
Qed.
(** what encode_code stores for a module *)
Definition source_code (srcs : folder) (fname n : list N) (h : header) (c : code) : Prop :=
  match enc_encrypted (enc_of h n) with
  | Some e => (exists b, dget (source_name fname n e) srcs = Some (TFile b) /\ c = CBin b) \/ (dget (source_name fname n e) srcs = None /\ c = CText [])
  | None => exists t, source_text (dget (source_name fname n s_bsl) srcs) t /\ Forall scalar t /\ c = CText t
  end.
Definition truthy_at (h : header) (n : list N) : bool := match dget (k_info n) h with Some i => vtruthy i | None => false end.
Lemma utf8sig_strip bs : utf8sig_decode bs = utf8_decode (strip_bom bs).
Proof. reflexivity. Qed.
Lemma encode_one_spec srcs fname n h codes codes' : encode_one srcs fname n h codes = Ok codes' ->
  (truthy_at h n = false /\ codes' = codes) \/ (truthy_at h n = true /\ exists c, codes' = dset n c codes /\ source_code srcs fname n h c).
Proof.
  unfold encode_one, truthy_at, source_code. destruct (dget (k_info n) h) as [i|]; [|intros H; injection H as <-; left; auto].
  destruct (vtruthy i); [|intros H; injection H as <-; left; auto]. right. split; [reflexivity|].
  destruct (enc_encrypted (enc_of h n)) as [e|].
  - unfold bin_read in H. destruct (dget (source_name fname n e) srcs) as [[b|fo]|]; cbn [bind] in H; try discriminate; injection H as <-.
    + exists (CBin b). split; [reflexivity|]. left. exists b. auto.
    + exists (CText []). split; [reflexivity|]. right. auto.
  - unfold txt_read, text_load in H. destruct (dget (source_name fname n s_bsl) srcs) as [[b|fo]|]; cbn [bind] in H; try discriminate.
    + rewrite dc_sig in H. destruct (utf8sig_decode b) as [x|ex] eqn:E; cbn [bind] in H.
      * injection H as <-. exists (CText (univ_nl x)). split; [reflexivity|]. exists (univ_nl x). rewrite utf8sig_strip in E. split; [exists x; auto|].
        split; [|reflexivity]. apply scalar_univ_nl. eapply utf8_decode_scalar. exact E.
      * exfalso. rewrite utf8sig_strip in E. apply err_unicode in E. subst ex. discriminate.
    + injection H as <-. exists (CText []). split; [reflexivity|]. exists []. split; [reflexivity|]. split; [constructor|reflexivity].
Qed.
Lemma encode_code_spec srcs fname ext h : NoDup (map fst ext) -> forall codes codes', encode_code srcs fname ext h codes = Ok codes' ->
  (forall n, In n (map fst ext) -> dget n codes = None) -> NoDup (map fst codes) ->
  NoDup (map fst codes') /\
  (forall n, ~ In n (map fst ext) -> dget n codes' = dget n codes) /\
  (forall n, In n (map fst ext) -> (truthy_at h n = false /\ dget n codes' = None) \/ (truthy_at h n = true /\ exists c, dget n codes' = Some c /\ source_code srcs fname n h c)).
Proof.
  induction ext as [|[n s] ext IH]; intros Hn codes codes' H Hc Hk; cbn [encode_code] in H.
  - injection H as <-. split; [exact Hk|]. split; [reflexivity|intros ? []].
  - cbn [map fst] in Hn. inversion Hn as [|? ? Hni Hn2]; subst. destruct (encode_one srcs fname n h codes) as [c1|] eqn:E; [|discriminate]. cbn [bind] in H.
    assert (Hnc : ~ In n (map fst codes)) by (apply (dget_none n codes); apply Hc; left; reflexivity).
    destruct (encode_one_spec _ _ _ _ _ _ E) as [(F & ->)|(F & c & -> & Sc)].
    + destruct (IH Hn2 _ _ H) as (A1 & A2 & A3); [intros m Hm; apply Hc; right; exact Hm|exact Hk|]. split; [exact A1|]. split.
      * intros m Hm. apply A2. intros Hi. apply Hm. right. exact Hi.
      * intros m [<-|Hm]; [left|apply A3; exact Hm]. split; [exact F|]. cbn [fst]. rewrite A2 by exact Hni. apply Hc. left. reflexivity.
    + destruct (IH Hn2 _ _ H) as (A1 & A2 & A3).
      { intros m Hm. rewrite dget_dset_other; [apply Hc; right; exact Hm|]. intros ->. exact (Hni Hm). }
      { rewrite dset_fresh by exact Hnc. rewrite map_app. cbn [map fst]. apply NoDup_app_one; assumption. }
      split; [exact A1|]. split.
      * intros m Hm. rewrite A2 by (intros Hi; apply Hm; right; exact Hi). apply dget_dset_other. intros ->. apply Hm. left. reflexivity.
      * intros m [<-|Hm]; [right|apply A3; exact Hm]. split; [exact F|]. exists c. split; [|exact Sc]. cbn [fst]. rewrite A2 by exact Hni. apply dget_dset_same.
Qed.

(** one module written into the container folder *)
Definition code_bytes (os : platform) (dirs : bool) (e : list N) (c : code) (bs : list N) : Prop :=
  (is_encrypted e = true /\ c = CBin bs) \/ (is_encrypted e = false /\ exists t, c = CText t /\ text_store os e (redir dirs t) = Ok bs).
Lemma write_module os dirs e c fo name fo' : c <> CNone ->
  (if is_encrypted e then bin_write c fo name else write_raw_code os c fo name e dirs) = Ok fo' ->
  exists bs, fo' = dset name (TFile bs) fo /\ code_bytes os dirs e c bs.
Proof.
  intros Hc H. unfold code_bytes. destruct (is_encrypted e).
  - destruct c as [|t|b]; try discriminate. unfold bin_write, put_file in H. destruct (dget name fo) as [[|]|]; try discriminate; injection H as <-; eexists; (split; [reflexivity|left; auto]).
  - destruct c as [|t|b]; [congruence| |destruct dirs; discriminate]. unfold write_raw_code in H.
    replace (if dirs then CText (comment_directives t) else CText t) with (CText (redir dirs t)) in H by (destruct dirs; reflexivity).
    unfold txt_write in H. destruct (text_store os e (redir dirs t)) as [bs|] eqn:E; [|discriminate]. unfold put_file in H.
    destruct (dget name fo) as [[|]|]; try discriminate; injection H as <-; exists bs; (split; [reflexivity|right; split; [reflexivity|exists t; auto]]).
Qed.
Lemma encode_file_spec os dirs uuid n s c h dest dest' : c <> CNone -> encode_file os uuid n s c h dirs dest = Ok dest' ->
  exists tr bs e, dest' = dset (dotted uuid s) tr dest /\ module_bytes (Some tr) bs /\ code_bytes os dirs e c bs /\
    e = match enc_of h n with Some (VStr x) => x | _ => e_utf8 end.
Proof.
  intros Hc H. unfold encode_file in H.
  assert (He : exists e, e = match enc_of h n with Some (VStr x) => x | _ => e_utf8 end /\
     (match dget (k_info n) h with
      | None => Err KeyError
      | Some i => match i with
        | VStr s0 => if str_eqb s0 s_file then if is_encrypted e then bin_write c dest (dotted uuid s) else write_raw_code os c dest (dotted uuid s) e dirs
          else match dget (dotted uuid s) dest with Some _ => Err FileExistsError | None =>
             sub <- brace_write os i [] s_info ;; sub <- (if is_encrypted e then bin_write c sub s_text else write_raw_code os c sub s_text e dirs) ;; Ok (dset (dotted uuid s) (TDir sub) dest) end
        | _ => match dget (dotted uuid s) dest with Some _ => Err FileExistsError | None =>
             sub <- brace_write os i [] s_info ;; sub <- (if is_encrypted e then bin_write c sub s_text else write_raw_code os c sub s_text e dirs) ;; Ok (dset (dotted uuid s) (TDir sub) dest) end
        end end) = Ok dest').
  { destruct (enc_of h n) as [[| x |]|]; cbn [bind] in H; try discriminate; eexists; (split; [reflexivity|exact H]). }
  clear H. destruct He as (e & He & H). destruct (dget (k_info n) h) as [i|]; [|discriminate].
  assert (D : match dget (dotted uuid s) dest with Some _ => Err FileExistsError | None =>
             sub <- brace_write os i [] s_info ;; sub <- (if is_encrypted e then bin_write c sub s_text else write_raw_code os c sub s_text e dirs) ;; Ok (dset (dotted uuid s) (TDir sub) dest) end = Ok dest' ->
     exists tr bs e, dest' = dset (dotted uuid s) tr dest /\ module_bytes (Some tr) bs /\ code_bytes os dirs e c bs /\
    e = match enc_of h n with Some (VStr x) => x | _ => e_utf8 end).
  { clear H. intros H. destruct (dget (dotted uuid s) dest); [discriminate|]. destruct (brace_write os i [] s_info) as [sub|]; [|discriminate]. cbn [bind] in H.
    destruct (if is_encrypted e then bin_write c sub s_text else write_raw_code os c sub s_text e dirs) as [sub2|] eqn:E; [|discriminate]. cbn [bind] in H. injection H as <-.
    destruct (write_module _ _ _ _ _ _ _ Hc E) as (bs & -> & Cb). exists (TDir (dset s_text (TFile bs) sub)), bs, e. split; [reflexivity|]. split; [|split; assumption].
    right. eexists. split; [reflexivity|]. apply dget_dset_same. }
  destruct i as [|x|l]; [apply D; exact H| |apply D; exact H]. destruct (str_eqb x s_file); [|apply D; exact H]. clear D.
  destruct (write_module _ _ _ _ _ _ _ Hc H) as (bs & -> & Cb). exists (TFile bs), bs, e. split; [reflexivity|]. split; [left; reflexivity|]. split; assumption.
Qed.
Definition enc_name (h : header) (n : list N) : list N := match enc_of h n with Some (VStr x) => x | _ => e_utf8 end.
Lemma write_encode_spec os dirs uuid h ext : NoDup (map snd ext) -> forall codes dest files out files',
  write_encode_code os uuid h codes ext dirs dest files = Ok (out, files') -> NoDup (map fst codes) -> Forall (fun nc => snd nc <> CNone) codes ->
  (forall n c, In (n, c) codes -> exists s tr bs, dget n ext = Some s /\ dget (dotted uuid s) out = Some tr /\ module_bytes (Some tr) bs /\ code_bytes os dirs (enc_name h n) c bs) /\
  (forall x, (forall n s, In n (map fst codes) -> dget n ext = Some s -> x <> dotted uuid s) -> dget x out = dget x dest).
Proof.
  intros Hs. induction codes as [|[n c] codes IH]; intros dest files out files' H Hn Hc; cbn [write_encode_code] in H.
  - injection H as <- <-. split; [intros ? ? []|reflexivity].
  - cbn [map fst] in Hn. inversion Hn as [|? ? Hni Hn2]; subst. inversion Hc as [|? ? Hc1 Hc2]; subst. cbn [snd] in Hc1.
    destruct (dget n ext) as [s|] eqn:Es; [|discriminate]. destruct (encode_file os uuid n s c h dirs dest) as [d1|] eqn:E; [|discriminate]. cbn [bind] in H.
    destruct (encode_file_spec _ _ _ _ _ _ _ _ _ Hc1 E) as (tr & bs & e & -> & Mb & Cb & He).
    destruct (IH _ _ _ _ H Hn2 Hc2) as (A & B). split.
    + intros m c' [Hi|Hi]; [|apply A; exact Hi]. injection Hi as <- <-. exists s, tr, bs. split; [exact Es|]. split; [|split; [exact Mb|rewrite He in Cb; exact Cb]].
      rewrite B; [apply dget_dset_same|]. intros m s' Hm Hs' Ed. apply dotted_inj in Ed. subst s'. apply dget_in in Es, Hs'.
      assert (m = n). { clear - Hs Es Hs'. induction ext as [|[a b] ext IHe]; [destruct Es|]. cbn [map snd] in Hs. inversion Hs as [|? ? Hb Hs2]; subst.
        destruct Es as [Es|Es], Hs' as [Hs'|Hs'].
        - congruence.
        - injection Es as -> ->. exfalso. apply Hb. apply (in_map snd) in Hs'. exact Hs'.
        - injection Hs' as -> ->. exfalso. apply Hb. apply (in_map snd) in Es. exact Es.
        - apply IHe; assumption. }
      subst m. exact (Hni Hm).
    + intros x Hx. rewrite B by (intros m s' Hm; apply Hx; right; exact Hm). apply dget_dset_other. apply (Hx n s); [left; reflexivity|exact Es].
Qed.

Lemma edited_modules os dirs uuid fname ext (srcs : folder) (h : header) (build0 : folder) codes out files :
  NoDup (map fst ext) -> NoDup (map snd ext) ->
  encode_code srcs fname ext h [] = Ok codes -> write_encode_code os uuid h codes ext dirs build0 [] = Ok (out, files) ->
  forall n s, In (n, s) ext ->
    (truthy_at h n = false /\ dget (dotted uuid s) out = dget (dotted uuid s) build0) \/
    (truthy_at h n = true /\ exists bs, module_bytes (dget (dotted uuid s) out) bs /\
       if is_encrypted (enc_name h n) then dget (source_name fname n (enc_name h n)) srcs = Some (TFile bs)
       else exists t t2, source_text (dget (source_name fname n s_bsl) srcs) t /\ (if dirs then hidden t t2 else t2 = t) /\ text_in os (enc_name h n) bs t2).
Proof.
  intros N1 N2 He Hw n s Hi.
  destruct (encode_code_spec _ _ _ _ N1 _ _ He) as (K1 & K2 & K3); [reflexivity|constructor|].
  assert (Hc : Forall (fun nc => snd nc <> CNone) codes).
  { rewrite Forall_forall. intros [m c] Hm. cbn [snd]. apply (dget_nodup m c codes K1) in Hm.
    destruct (in_dec (list_eq_dec N.eq_dec) m (map fst ext)) as [Hx|Hx]; [|rewrite (K2 m Hx) in Hm; discriminate].
    destruct (K3 m Hx) as [[_ G]|(_ & c' & G & Sc)]; [congruence|]. assert (c' = c) as -> by congruence. unfold source_code in Sc.
    destruct (enc_encrypted (enc_of h m)); [destruct Sc as [(b & _ & ->)|[_ ->]]; discriminate|destruct Sc as (t & _ & _ & ->); discriminate]. }
  destruct (write_encode_spec _ _ _ _ _ N2 _ _ _ _ _ Hw K1 Hc) as (W1 & W2).
  assert (Hx : In n (map fst ext)) by (apply (in_map fst) in Hi; exact Hi).
  destruct (K3 n Hx) as [[F G]|(F & c & G & Sc)].
  - left. split; [exact F|]. apply W2. intros m s' Hm Hs' Ed. apply dotted_inj in Ed. subst s'.
    assert (m = n). { apply (dget_nodup n s ext N1) in Hi. clear - N2 Hi Hs'. apply dget_in in Hi, Hs'. induction ext as [|[a b] ext IHe]; [destruct Hi|]. cbn [map snd] in N2. inversion N2 as [|? ? Hb Hs2]; subst.
        destruct Hi as [Es|Es], Hs' as [Hs'|Hs'].
        - congruence.
        - injection Es as -> ->. exfalso. apply Hb. apply (in_map snd) in Hs'. exact Hs'.
        - injection Hs' as -> ->. exfalso. apply Hb. apply (in_map snd) in Es. exact Es.
        - apply IHe; assumption. }
    subst m. apply (dget_none n codes) in G. exact (G Hm).
  - right. split; [exact F|]. destruct (W1 n c) as (s' & tr & bs & E1 & E2 & Mb & Cb); [apply dget_in; exact G|].
    apply (dget_nodup n s ext N1) in Hi. assert (s' = s) as -> by congruence. exists bs. rewrite E2. split; [exact Mb|].
    unfold source_code, enc_encrypted in Sc. unfold enc_name in *. destruct Cb as [(C1 & ->)|(C1 & t & -> & C2)].
    + rewrite C1. destruct (enc_of h n) as [[| x |]|]; try (vm_compute in C1; discriminate).
      rewrite C1 in Sc. destruct Sc as [(b & Sb & Eb)|[_ Eb]]; [|discriminate]. injection Eb as ->. exact Sb.
    + rewrite C1. assert (Sc2 : exists t0, source_text (dget (source_name fname n s_bsl) srcs) t0 /\ Forall scalar t0 /\ CText t = CText t0).
      { destruct (enc_of h n) as [[| x |]|]; try exact Sc. rewrite C1 in Sc. exact Sc. }
      clear Sc. destruct Sc2 as (t0 & St & Hs & Et). injection Et as <-. exists t, (redir dirs t). split; [exact St|]. unfold redir in *.
      assert (Hr : Forall scalar (if dirs then comment_directives t else t)) by (destruct dirs; [apply scalar_comment; exact Hs|exact Hs]).
      pose proof (store_text _ _ _ _ Hr C2) as Ht. split; [|exact Ht]. destruct dirs; [apply hidden_comment|reflexivity].
Qed.
