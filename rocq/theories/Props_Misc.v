(** C34-C39: object headers, product comments, directives, errors, offsets, retries.
    Models: Header.v, Directives.v, ExtError.v, CalcOffset.v, Retry.v. Vocabulary: Spec_Misc.v. *)
From Coq Require Import String.
From Verif Require Import PyBase PyInt PyText Brace Header Directives ExtError CalcOffset Retry Spec_Misc HeaderProofs MiscProofs.
Open Scope list_scope.
Open Scope Z_scope.

(** C34.  An own top-level object: no slash in the parent id, and the sixth header field
    absent or "0".  [quoted_name header n]: the name field is the literal "n". *)
Definition top_level (pid : list N) : Prop := ~ In 47%N pid.
Definition own (header : list val) : Prop := (length header < 6)%nat \/ vnth 5 header = Ok (VStr [48%N]).
Definition quoted_name (header : list val) (n : list N) : Prop := vnth 2 header = Ok (VStr (34%N :: n ++ [34%N])).

Lemma quoted_decode hdr n s2 : quoted_name hdr n -> vnth 2 hdr = Ok (VStr s2) -> s2 = str_encode n.
Proof. unfold quoted_name, str_encode, QUOTE. congruence. Qed.
Lemma strip_prefix p n : p <> [] -> negb (length p =? 0)%nat && starts p (p ++ n) = true.
Proof. intros H. rewrite starts_app. destruct p; [congruence|reflexivity]. Qed.
Lemma skipn_prefix {A} (p n : list A) : skipn (length p) (p ++ n) = n.
Proof. rewrite skipn_app, skipn_all, Nat.sub_diag. reflexivity. Qed.

(** decode then encode with the same prefix restores an own top-level object *)
Theorem C34_own_object_restored : forall valid prefix hdr sep obj hdr' pid n,
  decode_header valid prefix hdr sep = Ok (obj, hdr') -> quoted_name hdr (prefix ++ n) ->
  top_level pid -> own hdr ->
  h_name obj = n /\ encode_header (Some prefix) pid obj hdr' = Ok hdr.
Proof.
  intros valid prefix hdr sep obj hdr' pid n H Hq Ht Ho.
  destruct (@encode_decode valid prefix hdr sep obj hdr' (Some prefix) pid H) as (h2 & s2 & E & E2 & Hl & Hj & Hn & Hc & _).
  pose proof (quoted_decode _ _ _ Hq E2) as ->. rewrite str_decode_encode in Hn.
  assert (Hname : h_name obj = n).
  { destruct prefix as [|c p]; [cbn in Hn; exact Hn|]. rewrite strip_prefix in Hn by discriminate. rewrite skipn_prefix in Hn. exact Hn. }
  split; [exact Hname|]. rewrite E. f_equal. apply vnth_ext; [exact Hl|]. intros j.
  destruct (Nat.eq_dec j 2) as [->|Hne]; [|apply Hj; exact Hne].
  destruct Hc as [(p & Ep & _ & _ & Hv)|([Hx|[Hx|Hx]] & _)]; [|discriminate|contradiction|contradiction].
  injection Ep as <-. rewrite Hv, E2, Hname. reflexivity.
Qed.
Print Assumptions C34_own_object_restored.
(** without a prefix every object is restored, nested and borrowed ones included *)
Theorem C34_no_prefix_restored : forall valid hdr sep obj hdr' pid n options,
  decode_header valid [] hdr sep = Ok (obj, hdr') -> quoted_name hdr n -> (options = None \/ options = Some []) ->
  h_name obj = n /\ encode_header options pid obj hdr' = Ok hdr.
Proof.
  intros valid hdr sep obj hdr' pid n options H Hq Hopt.
  destruct (@encode_decode valid [] hdr sep obj hdr' options pid H) as (h2 & s2 & E & E2 & Hl & Hj & Hn & Hc & H2').
  pose proof (quoted_decode _ _ _ Hq E2) as ->. rewrite str_decode_encode in Hn. cbn [length Nat.eqb negb andb] in Hn, H2'.
  split; [exact Hn|]. rewrite E. f_equal. apply vnth_ext; [exact Hl|]. intros j.
  destruct (Nat.eq_dec j 2) as [->|Hne]; [|apply Hj; exact Hne].
  destruct Hc as [(p & Ep & _ & _ & Hv)|(_ & Hv)].
  - destruct Hopt as [Hopt|Hopt]; [congruence|]. rewrite Hopt in Ep. injection Ep as <-. rewrite Hv, E2, Hn. reflexivity.
  - rewrite Hv, H2', E2. reflexivity.
Qed.
Print Assumptions C34_no_prefix_restored.
(** nested and borrowed objects lose a prefix their name happens to start with *)
Theorem C34_prefix_lost_refuted : forall valid prefix hdr sep obj hdr' pid n options,
  decode_header valid prefix hdr sep = Ok (obj, hdr') -> quoted_name hdr (prefix ++ n) -> prefix <> [] ->
  ~ top_level pid \/ ~ own hdr ->
  exists hdr2, encode_header options pid obj hdr' = Ok hdr2 /\ quoted_name hdr2 n /\ hdr2 <> hdr.
Proof.
  intros valid prefix hdr sep obj hdr' pid n options H Hq Hp Hno.
  destruct (@encode_decode valid prefix hdr sep obj hdr' options pid H) as (h2 & s2 & E & E2 & Hl & Hj & Hn & Hc & H2').
  pose proof (quoted_decode _ _ _ Hq E2) as ->. rewrite str_decode_encode in Hn, H2'. rewrite strip_prefix in Hn, H2' by exact Hp.
  rewrite skipn_prefix in Hn. exists h2. split; [exact E|].
  assert (Hv : vnth 2 h2 = Ok (VStr (str_encode n))).
  { destruct Hc as [(p & _ & X & Y & _)|(_ & Hv)]; [exfalso; unfold top_level, own in Hno; tauto|]. rewrite Hv, H2', Hn. reflexivity. }
  split; [exact Hv|]. intros ->. unfold quoted_name in Hq. rewrite Hv in Hq. unfold str_encode, QUOTE in Hq.
  assert (n ++ [34%N] = (prefix ++ n) ++ [34%N]) as E3 by congruence. apply app_inj_tail in E3. destruct E3 as [E3 _].
  apply (f_equal (@length N)) in E3. rewrite app_length in E3. destruct prefix; [congruence|cbn in E3; lia].
Qed.
Print Assumptions C34_prefix_lost_refuted.
(** an own top-level object whose name does not carry the prefix gets it *)
Theorem C34_prefix_added_refuted : forall valid prefix hdr sep obj hdr' pid n,
  decode_header valid prefix hdr sep = Ok (obj, hdr') -> quoted_name hdr n -> starts prefix n = false ->
  top_level pid -> own hdr ->
  exists hdr2, encode_header (Some prefix) pid obj hdr' = Ok hdr2 /\ quoted_name hdr2 (prefix ++ n).
Proof.
  intros valid prefix hdr sep obj hdr' pid n H Hq Hs Ht Ho.
  destruct (@encode_decode valid prefix hdr sep obj hdr' (Some prefix) pid H) as (h2 & s2 & E & E2 & Hl & Hj & Hn & Hc & H2').
  pose proof (quoted_decode _ _ _ Hq E2) as ->. rewrite str_decode_encode, Hs, andb_false_r in Hn.
  exists h2. split; [exact E|].
  destruct Hc as [(p & Ep & _ & _ & Hv)|([Hx|[Hx|Hx]] & _)]; [|discriminate|contradiction|contradiction].
  injection Ep as <-. unfold quoted_name. rewrite Hv, Hn. reflexivity.
Qed.
Print Assumptions C34_prefix_added_refuted.

(** the uuid, name, locale names and comment shown for the object are the header's own *)
Theorem C34_header_fields : forall (valid : list N -> bool) h0 a b uuid rest1 name locs more comment tail sep,
  valid uuid = true -> NoDup (map fst locs) ->
  exists hdr', decode_header valid []
      (h0 :: VList (a :: b :: VStr uuid :: rest1) :: quoted name :: locale_list locs more :: quoted comment :: tail) sep
    = Ok (mkhobj uuid name locs comment, hdr').
Proof.
  intros valid h0 a b uuid rest1 name locs more comment tail sep Hv Hn.
  assert (E : List.concat (List.map (fun kv => [quoted (fst kv); quoted (snd kv)]) locs) = loc_pairs locs).
  { clear. induction locs as [|[k v] l IH]; [reflexivity|]. cbn [map concat app loc_pairs fst snd]. rewrite IH. reflexivity. }
  unfold locale_list. rewrite E. unfold decode_header, quoted. cbn [vnth nth_error bind vlist vstr].
  rewrite Hv. cbn [negb]. change (length (A := N) []) with O. cbn [Nat.eqb negb andb bind vnth nth_error vlist vstr].
  rewrite int_of_str_of_int. cbn [bind]. unfold zlen. rewrite Nat2Z.id.
  pose proof (@read_name2_ok (VStr (str_of_int (Z.of_nat (length locs)))) more locs [] Hn) as R. cbn [app length] in R.
  rewrite R. cbn [bind]. change (34%N :: name ++ [34%N]) with (str_encode name). change (34%N :: comment ++ [34%N]) with (str_encode comment).
  rewrite !str_decode_encode. destruct sep; eexists; reflexivity.
Qed.
Print Assumptions C34_header_fields.
Example C34_header_fields_met : NoDup (map fst [(u "ru", u "Товары"); (u "en", u "Goods")]%string).
Proof. repeat constructor; cbn; intuition discriminate. Qed.

(** C35 *)
Theorem C35_idempotent : forall v p c, v <> [] ->
  set_product_comment true v p (set_product_comment true v p c) = set_product_comment true v p c.
Proof. intros v p c Hv. apply set_comment_last_wins; exact Hv. Qed.
Print Assumptions C35_idempotent.
Theorem C35_last_wins : forall v1 p1 v2 p2 c, v1 <> [] -> v2 <> [] ->
  set_product_comment true v2 p2 (set_product_comment true v1 p1 c) = set_product_comment true v2 p2 c.
Proof. intros; apply set_comment_last_wins; assumption. Qed.
Print Assumptions C35_last_wins.
(** everything up to the first "ver:" is kept and only the version follows it *)
Theorem C35_result : forall v c a b, v <> [] -> c = a ++ ver_mark ++ b -> (forall a' b', c = a' ++ ver_mark ++ b' -> (length a <= length a')%nat) ->
  set_product_comment true v [] c = a ++ ver_mark ++ v.
Proof.
  intros v c a b Hv Hc Hmin.
  assert (Hf : find_sub ver_mark c = Some (length a)).
  { apply find_sub_intro.
    - rewrite Hc, app_length. lia.
    - rewrite Hc, skipn_prefix. apply starts_app.
    - intros j Hj. destruct (starts ver_mark (skipn j c)) eqn:E; [|reflexivity]. exfalso.
      apply starts_spec in E. destruct E as [t E].
      assert (Hlen : (length a <= length (firstn j c))%nat).
      { apply (Hmin (firstn j c) t). rewrite <- E. symmetry. apply firstn_skipn. }
      rewrite firstn_length in Hlen. lia. }
  destruct (@set_comment_shape v [] c (length a) Hv Hf) as (rest & -> & ->).
  rewrite Hc. rewrite firstn_app. rewrite firstn_all2 by lia. replace (length a + 3 - length a)%nat with 3%nat by lia.
  rewrite app_nil_r. rewrite <- app_assoc. reflexivity.
Qed.
Print Assumptions C35_result.
Theorem C35_absent_mark : forall opt v p c, ~ occurs ver_mark c -> set_product_comment opt v p c = c.
Proof.
  intros opt v p c H. unfold set_product_comment. destruct (length v =? 0)%nat; [reflexivity|].
  destruct (find_sub ver_mark c) as [i|] eqn:E; [|reflexivity]. exfalso. apply H.
  destruct (find_sub_some _ _ E) as (t & Ht & _). exists (firstn i c), t. rewrite <- Ht. symmetry. apply firstn_skipn.
Qed.
Print Assumptions C35_absent_mark.

(** C36 *)
Theorem C36_directive_roundtrip : forall t,
  (forall d, In d [35; 124; 38]%N -> ~ occurs (LF :: marker ++ [d]) t) ->
  uncomment_directives (comment_directives t) = t.
Proof. exact uncomment_comment. Qed.
Print Assumptions C36_directive_roundtrip.
(** after commenting no line but the first starts with a directive *)
Theorem C36_no_directive_left : forall t a b d, In d [d_area; d_end; d_server; d_client] ->
  comment_directives t = a ++ LF :: b -> starts d b = false.
Proof.
  intros t a b d Hd H. apply comment_no_directive in H. unfold directive_at in H.
  apply orb_false_iff in H. destruct H as [H H4]. apply orb_false_iff in H. destruct H as [H H3]. apply orb_false_iff in H. destruct H as [H1 H2].
  cbn [In] in Hd. destruct Hd as [<-|[<-|[<-|[<-|[]]]]]; assumption.
Qed.
Print Assumptions C36_no_directive_left.
(** ... but the first line keeps its directive *)
Theorem C36_first_line_refuted : forall t d, In d [d_area; d_end; d_server; d_client] -> starts d t = true -> ~ In LF t ->
  comment_directives t = t.
Proof.
  intros t d _ _ H. induction t as [|c t IH]; [reflexivity|]. cbn [comment_directives].
  destruct (N.eqb_spec c LF) as [->|Hne]; [exfalso; apply H; left; reflexivity|]. cbn [andb]. rewrite IH; [reflexivity|].
  intros Hin. apply H. right. exact Hin.
Qed.
Print Assumptions C36_first_line_refuted.

(** C37.  [cm] gives the default message of each error class. *)
Theorem C37_message_kept : forall cm ks e, Forall (fun k => k_message k = None) ks -> (exists c m, x_message e = Some (c :: m)) ->
  x_message (wraps cm ks e) = x_message e /\ x_detail (wraps cm ks e) = x_detail e /\ x_code (wraps cm ks e) = x_code e.
Proof. intros cm ks e Hk (c & m & Hm). apply wraps_keep; [exact Hk|]. rewrite Hm. reflexivity. Qed.
Print Assumptions C37_message_kept.
Theorem C37_class_kept : forall cm ks e, Forall (fun k => k_message k = None /\ k_cls k = base_cls) ks ->
  x_cls (wraps cm ks e) = x_cls e.
Proof. intros cm ks e Hk. apply wraps_class. exact Hk. Qed.
Print Assumptions C37_class_kept.
(** the actions on the stack: those already there, then those of the error and of all wraps but
    the outermost, repetitions collapsed and empty ones left out *)
Theorem C37_stack : forall cm ks e, Forall (fun k => k_message k = None) ks ->
  map se_action (x_stack (wraps cm ks e)) =
    map se_action (x_stack e) ++
    map Some (collapse (last (map se_action (x_stack e)) None) (firstn (length ks) (x_action e :: map k_action ks))).
Proof.
  intros cm ks e Hk. pose proof (@wraps_stack cm ks Hk e) as H. unfold acts in H. rewrite H. clear H. f_equal. f_equal.
  assert (El : lastof (x_stack e) = last (map se_action (x_stack e)) None).
  { unfold lastof, last_action. destruct (x_stack e) as [|s st] using rev_ind; [reflexivity|].
    rewrite rev_app_distr, map_app. cbn. rewrite last_last. reflexivity. }
  rewrite El. f_equal. rewrite <- firstn_map. cbn [map]. f_equal. f_equal. rewrite map_map. reflexivity.
Qed.
Print Assumptions C37_stack.
(** the texts too, and whatever messages the wraps give: no level of the chain but the outermost
    (whose texts are the error's own) disappears from the stack, unless it has no action or repeats
    the action below it *)
Theorem C37_stack_texts : forall cm ks e,
  map (fun s => (se_action s, se_message s, se_detail s)) (x_stack (wraps cm ks e)) =
    map (fun s => (se_action s, se_message s, se_detail s)) (x_stack e) ++
    collapse_levels (last (map se_action (x_stack e)) None)
      (firstn (length ks)
        ((x_action e, if x_new_msg e then x_message e else None, if x_new_msg e then nonempty (x_detail e) else None) ::
         map (fun k => (k_action k, nonempty (k_message k),
                        match nonempty (k_message k) with Some _ => nonempty (k_detail k) | None => None end)) ks)).
Proof.
  intros cm ks e. pose proof (@wraps_levels cm ks e) as H.
  assert (El : lastof (x_stack e) = last (map se_action (x_stack e)) None).
  { unfold lastof, last_action. destruct (x_stack e) as [|s st] using rev_ind; [reflexivity|].
    rewrite rev_app_distr, map_app. cbn. rewrite last_last. reflexivity. }
  rewrite El in H. exact H.
Qed.
Print Assumptions C37_stack_texts.
Theorem C37_dump : forall cm ks e k, NoDup (map fst (x_dump e)) -> Forall (fun w => NoDup (map fst (k_dump w))) ks ->
  dget k (x_dump (wraps cm ks e)) =
    fold_left (fun r w => match dget k (k_dump w) with Some v => Some v | None => r end) ks (dget k (x_dump e)).
Proof. intros; apply wraps_dump; assumption. Qed.
Print Assumptions C37_dump.
(** a detail or code given to a wrap without a message is lost *)
Theorem C37_detail_lost_refuted : forall cm k e, k_message k = None ->
  x_detail (wrap cm k e) = x_detail e /\ x_code (wrap cm k e) = x_code e.
Proof. intros cm k e H. unfold wrap. rewrite H. split; reflexivity. Qed.
Print Assumptions C37_detail_lost_refuted.

(** C38 *)
Theorem C38_offset : forall counters first data rest, laid_out counters data ->
  calc_offset counters (first :: data ++ rest) = Ok (zlen data).
Proof.
  intros counters first data rest H. unfold calc_offset.
  pose proof (@calc_offset_walk counters data H [first] rest ltac:(discriminate)) as E.
  change ([first] ++ data ++ rest) with (first :: data ++ rest) in E.
  change (zlen [first]) with 1 in E. change (1 - 1) with 0 in E. rewrite E. f_equal. lia.
Qed.
Print Assumptions C38_offset.

(** a first counter counted from the end, as Python does *)
Theorem C38_from_the_end : forall pre n post size, 0 <= n -> size <> 0 ->
  calc_offset [(- (1 + zlen post), size)] (pre ++ VStr (str_of_int n) :: post) = Ok (- (1 + zlen post) + n * size).
Proof.
  intros pre n post size Hn Hs. unfold calc_offset. cbn [calc_offset_go]. destruct (Z.eqb_spec size 0); [contradiction|].
  change (0 + - (1 + zlen post)) with (- (1 + zlen post)). rewrite py_nth_end. cbn [int_of_val]. rewrite int_of_str_of_int. reflexivity.
Qed.
Print Assumptions C38_from_the_end.
(** data that does not reach the counter, or has something else than a number there, is an error
    (never a wrong offset), after any well laid out beginning *)
Theorem C38_errors : forall counters first data k size more, laid_out counters data -> size <> 0 -> 0 <= k ->
  (forall rest, zlen rest < k -> calc_offset (counters ++ (k, size) :: more) (first :: data ++ rest) = Err IndexError) /\
  (forall filler x rest, k = 1 + zlen filler -> (forall n, int_of_val x <> Ok n) ->
     calc_offset (counters ++ (k, size) :: more) (first :: data ++ filler ++ x :: rest) = Err ExtExc).
Proof.
  intros counters first data k size more H Hs Hk.
  assert (W : forall tail, calc_offset (counters ++ (k, size) :: more) (first :: data ++ tail) =
                           calc_offset_go (zlen data) ((k, size) :: more) (first :: data ++ tail)).
  { intros tail. unfold calc_offset. pose proof (@calc_offset_app counters data H [first] tail ((k, size) :: more) ltac:(discriminate)) as E.
    change ([first] ++ data ++ tail) with (first :: data ++ tail) in E. change (zlen [first]) with 1 in E. change (1 - 1) with 0 in E.
    rewrite E. f_equal. lia. }
  split.
  - intros rest Hr. rewrite W. cbn [calc_offset_go]. destruct (Z.eqb_spec size 0); [contradiction|].
    rewrite py_nth_out; [reflexivity|]. right. rewrite zlen_cons, zlen_app. lia.
  - intros filler x rest Ek Hx. rewrite W. cbn [calc_offset_go]. destruct (Z.eqb_spec size 0); [contradiction|]. subst k.
    replace (zlen data + (1 + zlen filler)) with (zlen (first :: data ++ filler)) by (rewrite zlen_cons, zlen_app; lia).
    assert (E : first :: data ++ filler ++ x :: rest = (first :: data ++ filler) ++ x :: rest) by (cbn [app]; rewrite <- app_assoc; reflexivity).
    rewrite E, py_nth_mid. destruct (int_of_val x) as [n0|] eqn:Ex; [exfalso; exact (Hx n0 eq_refl)|reflexivity].
Qed.
Print Assumptions C38_errors.

(** C39 *)
Theorem C39_makedirs : forall os,
  (exists i, (i < 3)%nat /\ os i = MkDone /\ (forall j, (j < i)%nat -> os j = MkPerm) /\ makedirs os = (Ok tt, S i)) \/
  (exists i e, (i < 3)%nat /\ os i = MkOther e /\ (forall j, (j < i)%nat -> os j = MkPerm) /\ makedirs os = (Err e, S i)) \/
  ((forall j, (j < 3)%nat -> os j = MkPerm) /\ makedirs os = (Err PermissionError, 3%nat)).
Proof. exact makedirs_cases. Qed.
Print Assumptions C39_makedirs.
Theorem C39_txt_write : forall data mk os content,
  (fst (txt_write (Some data) mk os content) = Ok tt <->
   (exists i, (i < 3)%nat /\ mk i = MkDone /\ forall j, (j < i)%nat -> mk j = MkPerm) /\
   (exists i, (i < 3)%nat /\ os i = WrDone /\ forall j, (j < i)%nat -> os j = WrPerm \/ exists l, os j = WrPermLeft l)) /\
  (forall c, txt_write (Some data) mk os content = (Ok tt, c) -> c = Some data) /\
  (forall e c, txt_write (Some data) mk os content = (Err e, c) -> e = ExtExc).
Proof.
  intros data mk os content. split; [apply txt_write_ok|]. split; [apply txt_write_content|].
  intros e c. unfold txt_write. destruct (makedirs mk) as [[x|e'] n]; [|congruence].
  destruct (write_go 3 0 os data content) as [[[y|e'] m] c']; congruence.
Qed.
Print Assumptions C39_txt_write.

(** ** Concrete cases *)
Definition sample_header : list val :=
  [VStr (u "3"); VList [VStr (u "1"); VStr (u "0"); VStr (u "d5963243-262e-4398-b4d7-fb16d06484f6")];
   VStr (u """px_Doc"""); VList [VStr (u "1"); VStr (u """ru"""); VStr (u """Документ""")]; VStr (u """text ver:1""");
   VStr (u "0"); VStr (u "x")].
Example header_decodes : exists obj h, decode_header (fun _ => true) (u "px_") sample_header true = Ok (obj, h) /\
  h_name obj = u "Doc" /\ quoted_name sample_header (u "px_" ++ u "Doc") /\ own sample_header.
Proof. do 2 eexists. split; [vm_compute; reflexivity|]. split; [reflexivity|]. split; [reflexivity|right; reflexivity]. Qed.
Example comment_example : set_product_comment true (u "5.6") [] (u "text ver:1.0.0") = u "text ver:5.6".
Proof. vm_compute. reflexivity. Qed.
Example directive_example : comment_directives (LF :: u "&НаСервере" ++ [LF] ++ u "x") = LF :: u "// v8unpack &НаСервере" ++ [LF] ++ u "x".
Proof. vm_compute. reflexivity. Qed.
Example directive_first : In d_server [d_area; d_end; d_server; d_client] /\ starts d_server (u "&НаСервере") = true.
Proof. split; [cbn; auto|reflexivity]. Qed.
Definition sample_error : ext := mkext base_cls (Some 1) (Some (u "m")) (Some (u "d")) (Some (u "read")) [] [] true.
Definition act (s : string) : kw := mkkw base_cls None None None (Some (u s)) [].
Example error_example : map se_action (x_stack (wraps (fun _ => None) [act "read"; act "pool"; act "top"] sample_error)) = [Some (u "read"); Some (u "pool")].
Proof. vm_compute. reflexivity. Qed.
Example offset_example : laid_out [(3, 1); (1, 0)] [VStr (u "a"); VStr (u "b"); VStr (u "2"); VStr (u "r1"); VStr (u "r2"); VStr (u "c")].
Proof.
  change [VStr (u "a"); VStr (u "b"); VStr (u "2"); VStr (u "r1"); VStr (u "r2"); VStr (u "c")]
    with (([VStr (u "a"); VStr (u "b")] ++ VStr (str_of_int 2) :: [VStr (u "r1"); VStr (u "r2")]) ++ [VStr (u "c")] ++ []).
  apply lo_cons; [apply seg_count; [reflexivity|discriminate|lia|reflexivity]|].
  apply lo_cons; [apply seg_skip; reflexivity|apply lo_nil].
Qed.
Example retry_example : fst (txt_write (Some (u "x")) (fun i => match i with O => MkPerm | _ => MkDone end)
   (fun i => match i with 2%nat => WrDone | _ => WrPerm end) None) = Ok tt.
Proof. reflexivity. Qed.
