(** Proofs about ObjCode.v. *)
From Coq Require Import String.
From Verif Require Import PyBase PyText Utf Cp1251 Codecs Brace Spec_Brace BraceMain BraceFile BraceMore Pipeline Directives Spec_Misc MiscProofs Spec_Stage ObjCode Spec_Obj.
Open Scope list_scope.
Open Scope N_scope.

(** ** one module file *)
Definition undir (dirs : bool) (t : list N) : list N := if dirs then uncomment_directives t else t.
Definition redir (dirs : bool) (t : list N) : list N := if dirs then comment_directives t else t.
Definition dir_stable (dirs : bool) (x : list N) : Prop := dirs = true -> all_hidden x.

Lemma hidden_cons c y : all_hidden (c :: y) -> all_hidden y.
Proof.
  intros [H1 H2]. split.
  - intros d Hd (a & b & ->). apply (H1 d Hd). exists (c :: a), b. reflexivity.
  - intros a x r -> Hx. apply (H2 (c :: a) x r); [reflexivity|exact Hx].
Qed.
Lemma hidden_app a y : all_hidden (a ++ y) -> all_hidden y.
Proof. induction a as [|c a IH]; [auto|]. intros H. apply IH. eapply hidden_cons. exact H. Qed.
Lemma directive_at_spec s : directive_at s = true <-> exists d r, In d directives /\ s = d ++ r.
Proof.
  unfold directive_at. rewrite !orb_true_iff, !starts_spec. split.
  - intros [[[[r ->]|[r ->]]|[r ->]]|[r ->]].
    + exists d_area, r. split; [left; reflexivity|reflexivity].
    + exists d_end, r. split; [right; left; reflexivity|reflexivity].
    + exists d_server, r. split; [right; right; left; reflexivity|reflexivity].
    + exists d_client, r. split; [right; right; right; left; reflexivity|reflexivity].
  - intros (d & r & Hd & ->). destruct Hd as [<-|[<-|[<-|[<-|[]]]]].
    + left; left; left. exists r. reflexivity.
    + left; left; right. exists r. reflexivity.
    + left; right. exists r. reflexivity.
    + right. exists r. reflexivity.
Qed.
Lemma directive_nolf d : In d directives -> ~ In LF d.
Proof.
  intros Hd. assert (H : forallb (fun d => negb (existsb (N.eqb LF) d)) directives = true) by reflexivity.
  rewrite forallb_forall in H. specialize (H _ Hd). intros Hi. destruct (existsb (N.eqb LF) d) eqn:E; [discriminate|].
  assert (existsb (N.eqb LF) d = true); [|congruence]. apply existsb_exists. exists LF. split; [exact Hi|reflexivity].
Qed.
Lemma uncomment_starts p : ~ In LF p -> forall s, starts p (uncomment_go 0 s) = starts p s.
Proof.
  induction p as [|y p IH]; intros Hp s; [destruct (uncomment_go 0 s), s; reflexivity|].
  destruct s as [|c s]; [reflexivity|]. cbn [uncomment_go]. destruct (N.eqb_spec c LF) as [->|Hc]; cbn [andb].
  - destruct (marked_at s); cbn [starts]; replace (y =? LF) with false by (symmetry; apply N.eqb_neq; intros ->; apply Hp; left; reflexivity); reflexivity.
  - cbn [starts]. rewrite IH; [reflexivity|]. intros H. apply Hp. right. exact H.
Qed.
Lemma uncomment_directive s : directive_at (uncomment_go 0 s) = directive_at s.
Proof. unfold directive_at. rewrite !uncomment_starts; [reflexivity|apply directive_nolf; unfold directives; cbn; auto 6 ..]. Qed.
Lemma comment_uncomment x : all_hidden x -> comment_directives (uncomment_directives x) = x.
Proof.
  unfold uncomment_directives. remember (length x) as n eqn:E. assert (Hn : (length x <= n)%nat) by lia. clear E. revert x Hn.
  induction n as [|n IH]; intros x Hn H; destruct x as [|c t]; cbn [length] in Hn; try lia; try reflexivity.
  cbn [uncomment_go]. destruct (N.eqb_spec c LF) as [->|Hc]; cbn [andb].
  - destruct (marked_at t) eqn:Em.
    + unfold marked_at in Em. apply andb_true_iff in Em. destruct Em as [E1 E2]. apply starts_spec in E1. destruct E1 as [r ->].
      rewrite skipn_app, skipn_all, Nat.sub_diag in E2. cbn [app skipn] in E2. destruct r as [|d r]; [discriminate|].
      rewrite (uncomment_skip marker (d :: r)). cbn [comment_directives]. rewrite N.eqb_refl, uncomment_directive. cbn [andb].
      destruct H as [H1 H2].
      destruct (H2 [] d r) as (dd & r' & Hd & E); [reflexivity| |].
      { unfold dir_char in E2. rewrite !orb_true_iff, !N.eqb_eq in E2. cbn. destruct E2 as [[ -> | -> ]| -> ]; auto. }
      assert (Ed : directive_at (d :: r) = true) by (apply directive_at_spec; exists dd, r'; auto). rewrite Ed. f_equal. f_equal. apply IH.
      * rewrite app_length in Hn. lia.
      * apply (hidden_app (LF :: marker)). split; assumption.
    + cbn [comment_directives]. rewrite uncomment_directive.
      assert (Ed : directive_at t = false).
      { destruct (directive_at t) eqn:Ed; [|reflexivity]. exfalso. apply directive_at_spec in Ed. destruct Ed as (d & r & Hd & ->). destruct H as [H1 _]. apply (H1 d Hd). exists [], r. reflexivity. }
      rewrite Ed, andb_false_r. f_equal. apply IH; [lia|]. eapply hidden_cons; exact H.
  - cbn [comment_directives]. replace (c =? LF) with false by lia. cbn [andb]. f_equal. apply IH; [lia|]. eapply hidden_cons; exact H.
Qed.
Lemma uncomment_in k x : forall c, In c (uncomment_go k x) -> In c x.
Proof.
  revert k. induction x as [|a x IH]; intros k c H; [destruct k; destruct H|]. cbn [uncomment_go] in H. destruct k; [|right; eapply IH; exact H].
  destruct (N.eqb_spec a LF) as [->|Ha]; cbn [andb] in H; [destruct (marked_at x)|]; (destruct H as [H|H]; [left; exact H|right; eapply IH; exact H]).
Qed.
Lemma comment_in y : forall c, In c y -> In c (comment_directives y).
Proof.
  induction y as [|x y IH]; intros c H; [destruct H|]. cbn [comment_directives].
  destruct ((x =? LF) && directive_at y) eqn:E; destruct H as [<-|H].
  - apply andb_true_iff in E. destruct E as [E _]. apply N.eqb_eq in E. left. symmetry. exact E.
  - right. apply in_or_app. right. apply IH. exact H.
  - left. reflexivity.
  - right. apply IH. exact H.
Qed.
Lemma uncomment_bom t : uncomment_directives (65279 :: t) = 65279 :: uncomment_directives t.
Proof. reflexivity. Qed.

Lemma univ_bom t : univ_nl (65279 :: t) = 65279 :: univ_nl t.
Proof. reflexivity. Qed.
Lemma write_bom os t : write_nl os (65279 :: t) = 65279 :: write_nl os t.
Proof. reflexivity. Qed.

Lemma bom_text bs t : utf8_decode (utf8_bom ++ bs) = Ok t -> exists t', t = 65279 :: t' /\ utf8_decode bs = Ok t'.
Proof.
  intros H. change (utf8_bom ++ bs) with (utf8_char 65279 ++ bs) in H. rewrite utf8_decode_char in H by (split; reflexivity).
  destruct (utf8_decode bs) as [t'|]; [|discriminate]. injection H as <-. exists t'. auto.
Qed.
Lemma bom_start bs t : utf8_decode bs = Ok (65279 :: t) -> starts utf8_bom bs = true.
Proof. intros H. apply utf8_decode_encode in H. unfold utf8_encode in H. destruct (forallb _ _); [|discriminate]. injection H as <-. reflexivity. Qed.

Lemma detect_sig bs : starts utf8_bom bs = true -> detect_by_bom bs = e_utf8sig.
Proof. intros H. apply starts_spec in H. destruct H as [t ->]. unfold detect_by_bom. destruct t; reflexivity. Qed.
Lemma detect_plain bs t : utf8_decode bs = Ok t -> starts utf8_bom bs = false -> detect_by_bom bs = e_utf8.
Proof.
  intros H Hs. unfold detect_by_bom.
  assert (E : starts utf8_bom (firstn 4 bs) = false).
  { destruct (starts utf8_bom (firstn 4 bs)) eqn:E; [|reflexivity]. apply starts_spec in E. destruct E as [r E].
    assert (starts utf8_bom bs = true); [|congruence]. apply starts_spec. exists (r ++ skipn 4 bs). rewrite app_assoc, <- E. symmetry. apply firstn_skipn. }
  rewrite E. cbv zeta. clear E Hs. destruct bs as [|a bs]; [reflexivity|]. change (firstn 4 (a :: bs)) with (a :: firstn 3 bs).
  destruct (N.eq_dec a 255) as [->|H1]; [discriminate|]. destruct (N.eq_dec a 254) as [->|H2]; [discriminate|].
  assert (X1 : starts [255; 254; 0; 0] (a :: firstn 3 bs) = false) by (cbn [starts]; replace (255 =? a) with false by lia; reflexivity).
  assert (X2 : starts [255; 254] (a :: firstn 3 bs) = false) by (cbn [starts]; replace (255 =? a) with false by lia; reflexivity).
  assert (X3 : starts [254; 255] (a :: firstn 3 bs) = false) by (cbn [starts]; replace (254 =? a) with false by lia; reflexivity).
  rewrite X1, X2, X3.
  assert (X4 : starts [0; 0; 254; 255] (a :: firstn 3 bs) = false).
  { destruct (starts [0; 0; 254; 255] (a :: firstn 3 bs)) eqn:E4; [|reflexivity]. exfalso. destruct bs as [|b [|c [|d bs]]]; try (cbn in E4; rewrite ?andb_false_r in E4; discriminate).
    cbn [firstn starts] in E4. rewrite !andb_true_iff, !N.eqb_eq in E4. destruct E4 as (<- & <- & <- & _). discriminate. }
  rewrite X4. reflexivity.
Qed.

Lemma native_univ os t : native os t -> write_nl os (univ_nl t) = t.
Proof. intros (x & -> & Hx). rewrite univ_write_nocr by exact Hx. reflexivity. Qed.

(** what happens to one module file: read into [c] with encoding [e], stored among the sources as
    [bsl], read as [c2] and written again as [bs] *)
Record cycle (os : platform) (dirs : bool) (bs : list N) (c : code) (e : list N) (c2 : code) : Prop := mkcycle {
  cy_read : forall fo name, dget name fo = Some (TFile bs) -> read_raw_code fo name dirs = Ok (c, e);
  cy_mid : (is_encrypted e = true /\ c = CBin bs /\ c2 = c /\ bs <> []) \/
    (is_encrypted e = false /\ exists t t2 bsl, c = CText t /\ c2 = CText t2 /\
       text_store os e_utf8 t = Ok bsl /\ text_load e_utf8sig bsl = Ok t2 /\ (t = [] -> t2 = []) /\
       text_store os e (redir dirs t2) = Ok bs) }.

Lemma err_unicode bs e : utf8_decode bs = Err e -> e = UnicodeDecodeError.
Proof.
  assert (G : forall n bs e, (length bs <= n)%nat -> utf8_decode bs = Err e -> e = UnicodeDecodeError).
  { clear. induction n as [|n IH]; intros bs e Hn H; destruct bs as [|a t]; cbn [length] in Hn; try lia; try discriminate.
    cbn [utf8_decode] in H. cbv zeta in H.
    destruct (a <? 128). { destruct (utf8_decode t) eqn:E; [discriminate|]. cbn in H. injection H as <-. eapply IH; [|exact E]; lia. }
    destruct ((194 <=? a) && (a <? 224)).
    { destruct t as [|b t]; [congruence|]. destruct (cont b); [|congruence]. destruct (utf8_decode t) eqn:E; [discriminate|]. cbn in H. injection H as <-. eapply IH; [|exact E]; cbn [length] in Hn; lia. }
    destruct ((224 <=? a) && (a <? 240)).
    { destruct t as [|b [|c t]]; try congruence. destruct (_ && _ && _ && _); [|congruence]. destruct (utf8_decode t) eqn:E; [discriminate|]. cbn in H. injection H as <-. eapply IH; [|exact E]; cbn [length] in Hn; lia. }
    destruct ((240 <=? a) && (a <? 245)); [|congruence].
    destruct t as [|b [|c [|d t]]]; try congruence. destruct (_ && _ && _ && _ && _); [|congruence]. destruct (utf8_decode t) eqn:E; [discriminate|]. cbn in H. injection H as <-. eapply IH; [|exact E]; cbn [length] in Hn; lia. }
  apply (G (length bs)). lia.
Qed.
Lemma err_cp1251 bs : forall e, cp1251_decode bs = Err e -> e = UnicodeDecodeError.
Proof.
  induction bs as [|b bs IH]; intros e H; [discriminate|]. cbn [cp1251_decode] in H. destruct (cp1251_char b); [|congruence].
  destruct (cp1251_decode bs) eqn:E; [discriminate|]. cbn in H. injection H as <-. apply IH. reflexivity.
Qed.

Lemma dc_utf8 bs : codec_decode e_utf8 bs = utf8_decode bs. Proof. reflexivity. Qed.
Lemma dc_sig bs : codec_decode e_utf8sig bs = utf8sig_decode bs. Proof. reflexivity. Qed.
Lemma dc_cp bs : codec_decode e_cp1251 bs = cp1251_decode bs. Proof. reflexivity. Qed.
Lemma ec_utf8 bs : codec_encode e_utf8 bs = utf8_encode bs. Proof. reflexivity. Qed.
Lemma ec_sig bs : codec_encode e_utf8sig bs = utf8sig_encode bs. Proof. reflexivity. Qed.
Lemma ec_cp bs : codec_encode e_cp1251 bs = cp1251_encode bs. Proof. reflexivity. Qed.

(** writing a text without CR among the sources and reading it back *)
Lemma source_cycle os t : Forall scalar t -> ~ In CR t -> (forall r, t <> 65279 :: r) ->
  exists bsl, text_store os e_utf8 t = Ok bsl /\ text_load e_utf8sig bsl = Ok t.
Proof.
  intros Hs Hc Hb. unfold text_store, text_load. rewrite ec_utf8. rewrite scalar_encodes by (apply scalar_write; exact Hs).
  eexists; split; [reflexivity|]. rewrite dc_sig. unfold utf8sig_decode.
  assert (D : utf8_decode (flat_map utf8_char (write_nl os t)) = Ok (write_nl os t)).
  { apply utf8_encode_decode; [apply scalar_write; exact Hs|]. apply scalar_encodes. apply scalar_write. exact Hs. }
  destruct (starts utf8_bom (flat_map utf8_char (write_nl os t))) eqn:E.
  - exfalso. apply starts_spec in E. destruct E as [r E]. rewrite E in D. apply bom_text in D. destruct D as (r2 & D & _).
    destruct t as [|x t]; [discriminate|]. rewrite write_nl_cons in D. destruct (x =? LF) eqn:El.
    + destruct os; discriminate.
    + cbn [app] in D. injection D as -> _. apply (Hb t). reflexivity.
  - rewrite D. cbn [bind]. rewrite univ_write_nocr by exact Hc. reflexivity.
Qed.
Lemma source_cycle_bom os t : Forall scalar t -> ~ In CR t ->
  exists bsl, text_store os e_utf8 (65279 :: t) = Ok bsl /\ text_load e_utf8sig bsl = Ok t.
Proof.
  intros Hs Hc. unfold text_store, text_load. rewrite ec_utf8, write_bom.
  rewrite scalar_encodes by (constructor; [split; reflexivity|apply scalar_write; exact Hs]).
  eexists; split; [reflexivity|]. rewrite dc_sig. unfold utf8sig_decode. cbn [flat_map].
  change (utf8_char 65279) with utf8_bom. rewrite starts_app. cbn [utf8_bom app skipn].
  rewrite (utf8_encode_decode (write_nl os t)); [|apply scalar_write; exact Hs|apply scalar_encodes, scalar_write; exact Hs].
  cbn [bind]. rewrite univ_write_nocr by exact Hc. reflexivity.
Qed.

Lemma undir_facts dirs x : dir_stable dirs x -> redir dirs (undir dirs x) = x /\ (forall c, In c (undir dirs x) -> In c x) /\ (undir dirs x = [] -> x = []).
Proof.
  unfold dir_stable, undir, redir. destruct dirs; [|intros _; auto]. intros H. pose proof (comment_uncomment _ (H eq_refl)) as E.
  split; [exact E|]. split; [apply uncomment_in|]. intros E0. rewrite E0 in E. symmetry. exact E.
Qed.
Lemma dir_stable_bom dirs x : dir_stable dirs (65279 :: x) -> dir_stable dirs x.
Proof. intros H Hd. eapply hidden_cons. exact (H Hd). Qed.

Lemma code_form dirs e t : str_eqb e s_bin = false ->
  match CText t with CText t0 => if has_code (CText t) && negb (str_eqb e s_bin) && dirs then CText (uncomment_directives t0) else CText t | _ => CText t end = CText (undir dirs t).
Proof. intros He. rewrite He. unfold undir. destruct t as [|c t]; destruct dirs; reflexivity. Qed.

Lemma nocr_sub (x y : list N) : (forall c, In c x -> In c y) -> ~ In CR y -> ~ In CR x.
Proof. intros H Hy Hx. apply Hy, H, Hx. Qed.
Lemma scalar_sub (x y : list N) : (forall c, In c x -> In c y) -> Forall scalar y -> Forall scalar x.
Proof. intros H Hy. rewrite Forall_forall in *. auto. Qed.

Lemma cycle_text os dirs bs t : module_text bs t -> native os t -> dir_stable dirs (univ_nl t) -> exists c e c2, cycle os dirs bs c e c2.
Proof.
  intros Hm Hn Hd. destruct Hm as [t H|t e H H2].
  - pose proof (utf8_decode_scalar _ _ H) as Hs.
    destruct (starts utf8_bom bs) eqn:Eb.
    + apply starts_spec in Eb. destruct Eb as [bs' ->]. destruct (bom_text _ _ H) as (t' & -> & H'). rewrite univ_bom in Hd.
      destruct (undir_facts dirs _ (dir_stable_bom _ _ Hd)) as (R1 & R2 & R3). inversion Hs as [|? ? _ Hs']; subst.
      pose proof (scalar_univ_nl _ Hs') as Hsu.
      destruct (source_cycle_bom os (undir dirs (univ_nl t'))) as (bsl & B1 & B2); [eapply scalar_sub; eassumption|eapply nocr_sub; [exact R2|apply univ_nl_nocr]|].
      exists (CText (65279 :: undir dirs (univ_nl t'))), e_utf8sig, (CText (undir dirs (univ_nl t'))). split.
      * intros fo name Hg. unfold read_raw_code, txt_read, text_load. rewrite Hg, dc_utf8, H. cbn [bind]. rewrite detect_sig by apply starts_app.
        rewrite univ_bom. cbn [bind]. rewrite code_form by reflexivity. destruct dirs; reflexivity.
      * right. split; [reflexivity|]. do 3 eexists. split; [reflexivity|]. split; [reflexivity|]. split; [exact B1|]. split; [exact B2|]. split; [discriminate|].
        rewrite R1. unfold text_store. rewrite ec_sig. unfold utf8sig_encode. pose proof (native_univ _ _ Hn) as Ew. rewrite univ_bom, write_bom in Ew. injection Ew as ->.
        rewrite (utf8_decode_encode _ _ H'). reflexivity.
    + assert (Hb : forall r, t <> 65279 :: r) by (intros r ->; apply bom_start in H; congruence).
      destruct (undir_facts dirs _ Hd) as (R1 & R2 & R3). pose proof (scalar_univ_nl _ Hs) as Hsu.
      destruct (source_cycle os (undir dirs (univ_nl t))) as (bsl & B1 & B2).
      { eapply scalar_sub; eassumption. } { eapply nocr_sub; [exact R2|apply univ_nl_nocr]. }
      { intros r Er. assert (E : univ_nl t = redir dirs (65279 :: r)) by (rewrite <- Er; symmetry; exact R1).
        pose proof (native_univ _ _ Hn) as Ew. rewrite E in Ew. apply (Hb (write_nl os (redir dirs r))). rewrite <- Ew. destruct dirs; reflexivity. }
      exists (CText (undir dirs (univ_nl t))), e_utf8, (CText (undir dirs (univ_nl t))). split.
      * intros fo name Hg. unfold read_raw_code, txt_read, text_load. rewrite Hg, dc_utf8, H. cbn [bind]. rewrite (detect_plain _ _ H Eb).
        rewrite code_form by reflexivity. reflexivity.
      * right. split; [reflexivity|]. do 3 eexists. split; [reflexivity|]. split; [reflexivity|]. split; [exact B1|]. split; [exact B2|]. split; [auto|].
        rewrite R1. unfold text_store. rewrite ec_utf8, (native_univ _ _ Hn). apply utf8_decode_encode. exact H.
  - pose proof (cp1251_decode_scalar _ _ H2) as Hs. pose proof (err_unicode _ _ H) as ->.
    assert (Hb : forall c, In c t -> c <> 65279).
    { intros c Hc ->. clear - H2 Hc. revert t H2 Hc. induction bs as [|b bs IH]; intros t H Hc; cbn [cp1251_decode] in H; [injection H as <-; destruct Hc|].
      destruct (cp1251_char b) as [c|] eqn:E; [|discriminate]. destruct (cp1251_decode bs) as [r|] eqn:Er; [|discriminate]. cbn [bind] in H. injection H as <-.
      destruct Hc as [->|Hc]; [|eapply IH; [reflexivity|exact Hc]]. apply cp1251_char_byte in E. vm_compute in E. discriminate. }
    destruct (undir_facts dirs _ Hd) as (R1 & R2 & R3). pose proof (scalar_univ_nl _ Hs) as Hsu.
    destruct (source_cycle os (undir dirs (univ_nl t))) as (bsl & B1 & B2).
    { eapply scalar_sub; eassumption. } { eapply nocr_sub; [exact R2|apply univ_nl_nocr]. }
    { intros r Er. assert (Hin : In 65279 (undir dirs (univ_nl t))) by (rewrite Er; left; reflexivity). apply R2, univ_nl_in in Hin. destruct Hin as [Hin|Hin]; [discriminate|]. apply (Hb _ Hin). reflexivity. }
    exists (CText (undir dirs (univ_nl t))), e_cp1251, (CText (undir dirs (univ_nl t))). split.
    + intros fo name Hg. unfold read_raw_code, txt_read, text_load. rewrite Hg, dc_utf8, dc_cp, H, H2. cbn [bind].
      rewrite code_form by reflexivity. reflexivity.
    + right. split; [reflexivity|]. do 3 eexists. split; [reflexivity|]. split; [reflexivity|]. split; [exact B1|]. split; [exact B2|]. split; [auto|].
      rewrite R1. unfold text_store. rewrite ec_cp, (native_univ _ _ Hn). apply cp1251_decode_encode. exact H2.
Qed.
Lemma cycle_bin os dirs bs : not_text bs -> cycle os dirs bs (CBin bs) s_bin (CBin bs).
Proof.
  intros [[e1 H1] [e2 H2]]. pose proof (err_unicode _ _ H1) as ->. pose proof (err_cp1251 _ _ H2) as ->. split.
  - intros fo name Hg. unfold read_raw_code, txt_read, text_load, bin_read. rewrite Hg, dc_utf8, dc_cp, H1, H2. reflexivity.
  - left. split; [reflexivity|]. split; [reflexivity|]. split; [reflexivity|]. intros ->. discriminate.
Qed.
