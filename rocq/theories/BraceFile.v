(** Whole files: round trip through text and bytes, rejection of cut files. *)
From Verif Require Import PyBase PyText PyB64 Utf Brace Spec_Brace BraceProofs BraceSim BraceMain.
Set Implicit Arguments.
Open Scope list_scope.
Open Scope N_scope.

Definition roots_ok (rs : list val) : Prop := Forall (fun v => exists l, v = VList l /\ obj_ok l) rs.
Definition obj_list (v : val) : list val := match v with VList l => l | _ => [] end.
Definition roots_text (nl : list N) (data : list val) : list N :=
  join [COMMA; LF] (map (fun v => enc_obj nl (obj_list v)) data).

Lemma enc_roots_go_eq nl data : roots_ok data -> forall raw, raw <> [] ->
  enc_roots_go nl raw data = Ok (raw ++ flat_map (fun v => COMMA :: LF :: enc_obj nl (obj_list v)) data).
Proof.
  induction 1 as [|v data (l & -> & _) Hd IH]; intros raw Hr; cbn [enc_roots_go flat_map].
  - rewrite app_nil_r. reflexivity.
  - cbn [enc_root1 bind]. rewrite IH by (destruct raw; [congruence|discriminate]).
    f_equal. destruct raw as [|c raw]; [congruence|]. rewrite <- !app_assoc. reflexivity.
Qed.
Lemma join_flat nl v data : join [COMMA; LF] (map (fun v => enc_obj nl (obj_list v)) (v :: data)) =
  enc_obj nl (obj_list v) ++ flat_map (fun v => COMMA :: LF :: enc_obj nl (obj_list v)) data.
Proof.
  revert v; induction data as [|w data IH]; intros v; [cbn; rewrite app_nil_r; reflexivity|].
  cbn [map] in *. rewrite join_cons by discriminate. rewrite IH. reflexivity.
Qed.
Lemma encode_roots nl data : roots_ok data -> enc_roots_go nl [] data = Ok (roots_text nl data).
Proof.
  intros H. destruct H as [|v data (l & -> & Hl) Hd]; [reflexivity|].
  unfold roots_text. rewrite join_flat. cbn [enc_roots_go enc_root1 bind app].
  rewrite enc_roots_go_eq; [reflexivity|exact Hd|discriminate].
Qed.

Lemma safe_root rs l : (rs = [] -> not_big [VList l]) -> safe rs [] [] l.
Proof.
  intros H l1 x l2 -> Hb. unfold bigctx in Hb. destruct rs as [|]; [|discriminate].
  cbn in Hb. destruct l1 as [|y [|]]; try discriminate.
  destruct y as [|y|]; cbn in Hb; try discriminate. apply str_eqb_spec in Hb. subst.
  specialize (H eq_refl). cbn in H. apply H. reflexivity.
Qed.

Lemma roots_sim nl : fold_nl nl -> forall data, roots_ok data -> data <> [] -> forall s,
  md s = MParam -> is_pc CLOSE s = false -> stack s = [] -> (roots s = [] -> not_big data) ->
  exists s', run_lines (lines (roots_text nl data)) s = Ok s' /\ md s' = MParam /\ stack s' = [] /\ roots s' = roots s ++ data.
Proof.
  intros Hnl data Hd. induction Hd as [|v data (l & -> & Hl) Hd IH]; [congruence|].
  intros _ s Hm Hpc Hst Hbig.
  assert (Hobj := proj2 (sim Hnl) l Hl).
  destruct data as [|w data].
  - change (roots_text nl [VList l]) with (OPEN :: enc_elems nl l ++ CLOSE :: []).
    destruct (Hobj [] s Hm Hpc) as [p Hp].
    + rewrite Hst. apply safe_root. exact Hbig.
    + rewrite Hst. unfold bigctx. cbn [rev]. intros Hx; destruct (roots s); discriminate.
    + rewrite Hp, Hst. eexists. split; [reflexivity|]. cbn. auto.
  - replace (roots_text nl (VList l :: w :: data)) with (OPEN :: enc_elems nl l ++ CLOSE :: COMMA :: LF :: roots_text nl (w :: data)).
    2: { unfold roots_text. rewrite !join_flat. cbn [obj_list flat_map]. unfold enc_obj.
         cbn [app]. rewrite <- !app_assoc. reflexivity. }
    destruct (Hobj (COMMA :: LF :: roots_text nl (w :: data)) s Hm Hpc) as [p Hp].
    + rewrite Hst. apply safe_root. intros Hr. specialize (Hbig Hr). exact Hbig.
    + rewrite Hst. unfold bigctx. cbn [rev]. intros Hx; destruct (roots s); discriminate.
    + rewrite Hp, Hst. unfold closed. cbn [push fst snd].
      erewrite cont_comma; [|left; reflexivity|].
      2: { unfold end_value, is_pc. cbn. reflexivity. }
      rewrite cont_lf_param by reflexivity.
      destruct (IH ltac:(discriminate) (mkst MParam (text s) (roots s ++ [VList l]) [] None (Some [COMMA]))) as (s' & H1 & H2 & H3 & H4);
        try reflexivity.
      * cbn [roots]. intros Hx; destruct (roots s); discriminate.
      * exists s'. rewrite H1. repeat split; auto. rewrite H4. cbn. rewrite <- app_assoc. reflexivity.
Qed.

Lemma decode_roots nl data : fold_nl nl -> canonical data -> decode_file (roots_text nl data) = Ok (DTree data).
Proof.
  intros Hnl (Hne & Hd & Hbig).
  destruct (@roots_sim nl Hnl data Hd Hne init) as (s' & H1 & H2 & H3 & H4); try reflexivity; auto.
  unfold decode_file. rewrite H1. cbn [bind]. unfold finish, data_of. rewrite H2, H3, H4. cbn.
  destruct data; [congruence|reflexivity].
Qed.

(** ** Newline translation of the encoded text *)
Definition nl_of (p : platform) : list N := match p with Posix => [LF] | Windows => [LF; LF] end.
Definition readback (p : platform) (s : list N) : list N := univ_nl (write_nl p s).

Lemma write_nl_nocr p s : ~ In CR s -> univ_nl (write_nl p s) = s.
Proof. apply univ_write_nocr. Qed.
Lemma readback_char p c R : c <> CR -> readback p (c :: R) = c :: readback p R.
Proof.
  intros H. unfold readback. rewrite write_nl_cons. destruct (c =? LF) eqn:E.
  - apply N.eqb_eq in E; subst. destruct p; reflexivity.
  - cbn [app univ_nl]. apply N.eqb_neq in H; rewrite H. reflexivity.
Qed.
Lemma readback_app p s R : ~ In CR s -> readback p (s ++ R) = s ++ readback p R.
Proof.
  induction s as [|c s IH]; intros H; [reflexivity|]. cbn [app]. rewrite readback_char.
  - rewrite IH; [reflexivity|]. intros H2; apply H; right; exact H2.
  - intros ->; apply H; left; reflexivity.
Qed.
Lemma readback_crlf p R : readback p (CRLF ++ R) = nl_of p ++ readback p R.
Proof. unfold readback. rewrite write_nl_app. destruct p; cbn -[write_nl univ_nl]; reflexivity. Qed.

Lemma nocr_firstn n s : ~ In CR s -> ~ In CR (firstn n s).
Proof. intros H H2. apply H. rewrite <- (firstn_skipn n s). apply in_or_app; auto. Qed.
Lemma nocr_skipn n s : ~ In CR s -> ~ In CR (skipn n s).
Proof. intros H H2. apply H. rewrite <- (firstn_skipn n s). apply in_or_app; auto. Qed.

Lemma readback_fold p elem R : ~ In CR elem -> forall fuel j,
  readback p (fold_b64 CRLF fuel elem j ++ R) = fold_b64 (nl_of p) fuel elem j ++ readback p R.
Proof.
  intros H. induction fuel as [|k IH]; intros j; cbn [fold_b64]; [reflexivity|].
  destruct (Nat.leb j (length elem)); [|reflexivity].
  rewrite <- !app_assoc. rewrite readback_crlf. rewrite readback_app by (apply nocr_firstn, nocr_skipn; exact H).
  rewrite IH. reflexivity.
Qed.
Lemma readback_long p R : forall fuel elem, ~ In CR elem ->
  readback p (fold_long CRLF fuel elem ++ R) = fold_long (nl_of p) fuel elem ++ readback p R.
Proof.
  induction fuel as [|k IH]; intros elem H; cbn [fold_long]; [reflexivity|].
  destruct (Nat.ltb 64 (length elem)).
  - rewrite <- !app_assoc. rewrite readback_app by (apply nocr_firstn; exact H). rewrite readback_crlf.
    rewrite IH by (apply nocr_skipn; exact H). reflexivity.
  - apply readback_app; exact H.
Qed.
Lemma readback_str p s R : ~ In CR s -> readback p (enc_str CRLF s ++ R) = enc_str (nl_of p) s ++ readback p R.
Proof.
  intros H. unfold enc_str. destruct (starts p_base64 s).
  - rewrite <- !app_assoc. rewrite readback_app by (apply nocr_firstn; exact H). rewrite readback_fold by exact H. reflexivity.
  - destruct (starts pp_base64 s).
    + apply readback_app. apply nocr_skipn; exact H.
    + destruct (_ && _); [apply readback_long|apply readback_app]; exact H.
Qed.

Lemma plain_nocr s : plain s -> ~ In CR s.
Proof. unfold plain. rewrite Forall_forall. intros H Hin. apply H in Hin. apply Hin. unfold LF, CR; cbn; intuition. Qed.
Lemma payload_nocr s : Forall payload_char s -> ~ In CR s.
Proof. rewrite Forall_forall. intros H Hin. apply H in Hin. apply Hin. unfold LF, CR; cbn; intuition. Qed.
Lemma quoted_nocr s : quoted s -> ~ In CR s.
Proof.
  intros (b & -> & _ & Hb) [H|H]; [discriminate|]. apply in_app_or in H. destruct H as [H|[H|[]]]; [auto|discriminate].
Qed.
Lemma leaf_nocr s : leaf_ok s -> ~ In CR s.
Proof. intros (_ & [H|H] & _); [apply plain_nocr|apply quoted_nocr]; exact H. Qed.
Lemma long_nocr s : long_leaf s -> ~ In CR s.
Proof.
  intros (H & _) Hin. rewrite Forall_forall in H. apply H in Hin.
  destruct Hin as (Hp & _). apply Hp. cbn; intuition.
Qed.

Lemma readback_elems p :
  (forall b l, elems_ok b l -> forall R, readback p (enc_elems CRLF l ++ R) = enc_elems (nl_of p) l ++ readback p R) /\
  (forall l, obj_ok l -> forall R, readback p (enc_elems CRLF l ++ R) = enc_elems (nl_of p) l ++ readback p R).
Proof.
  apply elems_obj_ind.
  - reflexivity.
  - intros t _ IH R. rewrite !enc_elems_cons. cbn [enc_val is_list app]. destruct t; [reflexivity|].
    cbn [app]. rewrite readback_char by discriminate. rewrite IH. reflexivity.
  - intros t _ IH R. rewrite !enc_elems_cons. cbn [enc_val is_list app].
    change (enc_str CRLF []) with (@nil N). change (enc_str (nl_of p) []) with (@nil N). cbn [app].
    destruct t; [reflexivity|].
    cbn [app]. rewrite readback_char by discriminate. rewrite IH. reflexivity.
  - intros b s t Hs _ IH R. rewrite !enc_elems_cons. cbn [enc_val is_list]. rewrite <- !app_assoc.
    rewrite readback_str by (apply leaf_nocr; exact Hs). f_equal.
    destruct t; [reflexivity|].
    cbn [app]. rewrite readback_char by discriminate. rewrite IH. reflexivity.
  - intros b s Hs R. rewrite !enc_elems_cons. cbn [enc_val is_list]. rewrite !app_nil_r.
    apply readback_str. apply long_nocr; exact Hs.
  - intros b l t _ IHl _ IHt R. rewrite !enc_elems_cons, !enc_val_list. cbn [is_list app].
    rewrite !readback_char by discriminate. rewrite <- !app_assoc. rewrite IHl. cbn [app].
    rewrite readback_char by discriminate. do 4 f_equal.
    destruct t; cbn [app]; rewrite readback_char by discriminate; [reflexivity|]. rewrite IHt. reflexivity.
  - intros s Hs R. rewrite !enc_elems_cons. cbn [enc_val is_list]. rewrite !app_nil_r.
    apply readback_str. apply payload_nocr. destruct Hs as [(_ & _ & H)|(_ & H)]; exact H.
  - intros l _ _ _ IH R. apply IH.
Qed.

Lemma readback_roots p data : roots_ok data -> readback p (roots_text CRLF data) = roots_text (nl_of p) data.
Proof.
  intros H. destruct H as [|v data (l & -> & Hl) Hd]; [reflexivity|].
  unfold roots_text. rewrite !join_flat. cbn [obj_list]. unfold enc_obj at 1 3. cbn [app]. rewrite <- !app_assoc.
  rewrite readback_char by discriminate. rewrite (proj2 (readback_elems p) l Hl). cbn [app].
  rewrite readback_char by discriminate. do 3 f_equal.
  induction Hd as [|v data (l' & -> & Hl') Hd IH]; [reflexivity|].
  cbn [flat_map app obj_list]. unfold enc_obj at 1 3. cbn [app]. rewrite !readback_char by discriminate.
  rewrite <- !app_assoc. rewrite (proj2 (readback_elems p) l' Hl'). cbn [app]. rewrite readback_char by discriminate.
  rewrite IH. reflexivity.
Qed.

Lemma fold_nl_of p : fold_nl (nl_of p).
Proof. destruct p; [left|right]; reflexivity. Qed.

(** C16 *)
Lemma text_roundtrip p data : canonical data ->
  exists raw, encode_root_object data = Ok raw /\ decode_file (univ_nl (write_nl p raw)) = Ok (DTree data).
Proof.
  intros Hc. exists (roots_text CRLF data). destruct Hc as (Hne & Hd & Hb).
  split; [apply encode_roots; exact Hd|].
  change (univ_nl (write_nl p (roots_text CRLF data))) with (readback p (roots_text CRLF data)).
  rewrite readback_roots by exact Hd. apply decode_roots; [apply fold_nl_of|repeat split; assumption].
Qed.
