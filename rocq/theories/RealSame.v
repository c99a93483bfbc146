(** A build does not depend on how a source folder lists its files. *)
From Coq Require Import String Permutation.
From Verif Require OrgFormProofs FormCode.
From Verif Require Import PyBase PyText Utf Codecs Brace JsonText JsonTextProofs JsonObj Header Pipeline ObjCode Payload MetaObj Classes EncodeLoop Types Include Tree Spec_Tree Real FormElem FormJson Form27 Form27Json Spec_OrgForm Spec_OrgTree Form FormReal Spec_Again MetaObj.
Open Scope list_scope.
Open Scope N_scope.

Lemma bind_cong (A B : Type) (r r' : res A) (k k' : A -> res B) : r = r' -> (forall x, k x = k' x) -> bind r k = bind r' k'.
Proof. intros -> H. destruct r' as [x|]; [apply H|reflexivity]. Qed.

Lemma dotted_inj t x y : dotted t x = dotted t y -> x = y.
Proof. unfold dotted. intros A. apply app_inv_head in A. exact (app_inv_head [46] _ _ A). Qed.
Definition x_dbsl : list N := [46; 98; 115; 108].
Lemma ends_app (p x y : list N) : ends p (x ++ y) = starts (rev p) (rev y ++ rev x).
Proof. unfold ends. rewrite rev_app_distr. reflexivity. Qed.
Lemma module_ends t n : module_of t n -> ends x_dbsl n = true.
Proof. intros (c & _ & ->). unfold dotted. rewrite !ends_app. change (rev (u "bsl")) with [108; 115; 98]. rewrite !rev_app_distr. reflexivity. Qed.
Lemma kind_long c : In c code_kinds -> (3 <= length c)%nat.
Proof. intros H. assert (Z : forallb (fun c => Nat.leb 3 (length c)) code_kinds = true) by reflexivity. rewrite forallb_forall in Z. apply Nat.leb_le, Z, H. Qed.
Lemma same_not t n (a b : folder) : same_file t n a b -> ends x_dbsl n = false -> dget n b = dget n a.
Proof. intros [H|(H & _)] E; [exact H|]. apply module_ends in H. congruence. Qed.
Lemma same_short t x (a b : folder) : same_file t (dotted t x) a b -> (length x < 7)%nat -> dget (dotted t x) b = dget (dotted t x) a.
Proof. intros [H|((c & Hc & H) & _)] E; [exact H|]. apply dotted_inj in H. subst x. apply kind_long in Hc. unfold dotted in E. rewrite !app_length in E. change (length (u "bsl")) with 3%nat in E. cbn [length] in E. lia. Qed.
Lemma same_sig t n (a b : folder) : same_file t n a b -> txt_read b n e_utf8sig = txt_read a n e_utf8sig.
Proof.
  intros [H|(_ & c & Ha & Hb & Hc)]; unfold txt_read; [rewrite H; reflexivity|]. rewrite Ha, Hb.
  assert (E : text_load e_utf8sig (bare c) = text_load e_utf8sig c); [|rewrite E; reflexivity].
  unfold text_load. f_equal. change (utf8_decode (bare (bare c)) = utf8_decode (bare c)). rewrite Hc. reflexivity.
Qed.

Section Same.
Variable t : list N.
Variables a b : folder.
Hypothesis S : same_files t a b.
Definition nb (n : list N) : Prop := ends x_dbsl n = false.
Lemma at_same n : nb n -> dget n b = dget n a. Proof. exact (same_not _ _ _ _ (S n)). Qed.
Lemma short_same x : (length x < 7)%nat -> nb (dotted t x) \/ dget (dotted t x) b = dget (dotted t x) a. Proof. intros H. right. exact (same_short _ _ _ _ (S _) H). Qed.
Ltac lit := unfold nb, source_name, dotted; rewrite ?ends_app; reflexivity.
Lemma txt_read_same n e : nb n -> txt_read b n e = txt_read a n e. Proof. intros H. unfold txt_read. rewrite (at_same n H). reflexivity. Qed.
Lemma bin_read_same n : nb n -> bin_read b n = bin_read a n. Proof. intros H. unfold bin_read. rewrite (at_same n H). reflexivity. Qed.
Lemma json_read_same n : nb n -> json_read b n = json_read a n. Proof. intros H. unfold json_read. rewrite (at_same n H). reflexivity. Qed.
Lemma encrypted_nb e x : enc_encrypted e = Some x -> forall n, nb (dotted n x).
Proof.
  intros H n. unfold enc_encrypted in H. destruct e as [[|s|]|]; try discriminate. destruct (is_encrypted s) eqn:E; [|discriminate]. injection H as <-. unfold is_encrypted in E.
  apply existsb_exists in E. destruct E as (y & Hy & E). apply str_eqb_spec in E. subst y. cbv in Hy. repeat (destruct Hy as [<-|Hy]; [lit|]). destruct Hy.
Qed.
Lemma encode_code_same fname ext : forall h codes, encode_code b fname ext h codes = encode_code a fname ext h codes.
Proof.
  induction ext as [|[n s] ext IH]; intros h codes; [reflexivity|]. cbn [encode_code]. apply bind_cong; [|intros; apply IH]. unfold encode_one. destruct (dget (k_info n) h) as [i|]; [|reflexivity]. destruct (vtruthy i); [|reflexivity]. destruct (enc_encrypted (enc_of h n)) as [e|] eqn:E.
  - unfold source_name. rewrite (bin_read_same _ (encrypted_nb _ _ E _)). reflexivity.
  - rewrite (same_sig _ _ _ _ (S _)). reflexivity.
Qed.
Lemma html_same os fname uuid number dest fd h files : html_encode os b fname uuid number dest fd s_html h files = html_encode os a fname uuid number dest fd s_html h files.
Proof. unfold html_encode. rewrite (bin_read_same (dotted fname s_html)), (at_same (dotted fname s_bin)) by lit. reflexivity. Qed.
Lemma copy_same sname dest dname files : nb sname -> copy_back b sname dest dname files = copy_back a sname dest dname files.
Proof. intros H. unfold copy_back. rewrite (at_same _ H). reflexivity. Qed.
Lemma bin_back_same sname dest dname files : nb sname -> bin_back b sname dest dname files = bin_back a sname dest dname files.
Proof. intros H. unfold bin_back. rewrite (bin_read_same _ H). reflexivity. Qed.
Lemma tree_same name cls dest dname files : tree_back b name cls dest dname files = tree_back a name cls dest dname files.
Proof. unfold tree_back. destruct (S name) as [->|(_ & c & -> & -> & _)]; reflexivity. Qed.
Lemma text_same os sname dest dname files : nb sname -> text_back os b sname dest dname files = text_back os a sname dest dname files.
Proof. intros H. unfold text_back. rewrite ?(at_same _ H), ?txt_read_same by exact H. reflexivity. Qed.
Lemma ext_short alnum comment : (length (extension_of alnum comment) < 7)%nat.
Proof.
  unfold extension_of. destruct (strip comment) as [|c l]; [cbn; lia|]. destruct (Nat.ltb (length (last_word (c :: l))) 6) eqn:E; [|cbn; lia]. apply Nat.ltb_lt in E. cbn [andb]. destruct (match last_word (c :: l) with [] => false | _ => _ end); [lia|cbn; lia].
Qed.
Lemma bin_ext_same alnum comment : bin_read b (dotted t (extension_of alnum comment)) = bin_read a (dotted t (extension_of alnum comment)).
Proof. unfold bin_read. rewrite (same_short _ _ _ _ (S _) (ext_short alnum comment)). reflexivity. Qed.
Lemma base64_same os alnum comment dest dname files : base64_back os alnum b t comment dest dname files = base64_back os alnum a t comment dest dname files.
Proof. unfold base64_back. rewrite bin_ext_same, (at_same (dotted t s_c1b64)) by lit. reflexivity. Qed.
Lemma scheme_same os ext dest dname files : nb (dotted t ext) -> scheme_back os b t ext dest dname files = scheme_back os a t ext dest dname files.
Proof. intros H. unfold scheme_back. rewrite (at_same _ H), (copy_same _ _ _ _ H), text_same by lit. reflexivity. Qed.
Lemma tmpl_same os alnum ty uuid dest comment h files : tmpl_back os alnum ty b t uuid dest comment h files = tmpl_back os alnum ty a t uuid dest comment h files.
Proof. unfold tmpl_back. rewrite base64_same, html_same, !scheme_same, text_same by lit. reflexivity. Qed.
Lemma picture_same os alnum uuid dest comment h files : picture_back os alnum b t uuid dest comment h files = picture_back os alnum a t uuid dest comment h files.
Proof. unfold picture_back. rewrite bin_ext_same. reflexivity. Qed.
Lemma image_same os uuid number dest elem fd h files : nb elem -> image_back os b uuid number dest elem fd h files = image_back os a uuid number dest elem fd h files.
Proof. intros H. unfold image_back. rewrite (bin_read_same _ H). reflexivity. Qed.
(** the files of this part are not named like modules *)
Definition part_plain (p : part) : bool := match p with PRaw _ d => negb (ends x_dbsl d) | PImage _ d => negb (ends x_dbsl d) | _ => true end.
Definition part_fixed (p : part) : bool := match p with PPicture | PTemplate _ => false | _ => true end.
Lemma part_same os alnum p fname uuid out h files : part_plain p = true -> fname = t \/ part_fixed p = true -> part_back os alnum p b fname uuid out h files = part_back os alnum p a fname uuid out h files.
Proof.
  intros Hp Hf. destruct p; cbn [part_back part_plain] in *; try apply negb_true_iff in Hp; try reflexivity.
  all: try (rewrite ?html_same, ?(bin_back_same _ _ _ _ Hp), ?(image_same _ _ _ _ _ _ _ _ Hp); reflexivity).
  all: try (rewrite ?bin_back_same, ?copy_same, ?json_read_same by lit; reflexivity).
  - destruct Hf as [->|Hf]; [|discriminate]. apply bind_cong; [reflexivity|]. intros x. apply picture_same.
  - destruct Hf as [->|Hf]; [|discriminate]. apply bind_cong; [reflexivity|]. intros x. destruct (tmpl_by_name x tmpl_table); [|reflexivity]. apply bind_cong; [reflexivity|]. intros y. apply tmpl_same.
  - apply bind_cong; [reflexivity|]. intros x. rewrite tree_same. reflexivity.
Qed.
Lemma parts_same os alnum ps fname uuid : forallb part_plain ps = true -> fname = t \/ forallb part_fixed ps = true -> forall out h files, parts_back os alnum ps b fname uuid out h files = parts_back os alnum ps a fname uuid out h files.
Proof.
  induction ps as [|p ps IH]; intros Hp Hf out h files; [reflexivity|]. cbn [forallb] in Hp, Hf. apply andb_true_iff in Hp. destruct Hp as [Hp Hr]. rewrite andb_true_iff in Hf. cbn [parts_back]. rewrite (part_same _ _ _ _ _ _ _ _ Hp) by tauto. apply bind_cong; [reflexivity|]. intros [[o h'] f]. apply (IH Hr). tauto.
Qed.
Ltac go := repeat first [ reflexivity | rewrite parts_same by first [assumption | left; reflexivity | reflexivity | right; reflexivity] | rewrite encode_code_same | apply bind_cong; [first [reflexivity|idtac]|let x := fresh "x" in intros x] | match goal with |- (let (_, _) := ?x in _) = _ => destruct x end ].
Definition class_plain (c : class) : bool := forallb part_plain (c_parts c) && forallb part_plain (c_late c).
Lemma obj_encode_same os alnum store c options version pid fill out : c_name c = t -> class_plain c = true -> obj_encode os alnum store c options version pid fill b out = obj_encode os alnum store c options version pid fill a out.
Proof.
  intros Ht Hc. apply andb_true_iff in Hc. destruct Hc as [Hc1 Hc2]. unfold obj_encode. rewrite Ht, !json_read_same by lit. destruct (json_read a _) as [jids|e]; [|reflexivity]. destruct (json_read a _) as [jh|e]; [|reflexivity]. go.
Qed.
Lemma build_one_same os alnum version store c fill : c_name c = t -> class_plain c = true -> build_one os alnum version store c fill b = build_one os alnum version store c fill a.
Proof. intros Ht Hc. unfold build_one. rewrite (obj_encode_same _ _ _ _ _ _ _ _ _ Ht Hc). reflexivity. Qed.
Lemma real_rd_same t' : real_rd t' b = real_rd t' a.
Proof. unfold real_rd. rewrite !json_read_same by lit. reflexivity. Qed.
Lemma source_tree_same t' : source_tree t' b = source_tree t' a.
Proof. unfold source_tree. rewrite json_read_same by lit. reflexivity. Qed.
End Same.

(** ** Elements of forms *)
Section Data.
Variable A : Type.
Variable f : jval -> res A.
Notation conv := (fun e : list N * jval => x <- f (snd e) ;; Ok (fst e, x)).
Lemma mapm_in (l : list (list N * jval)) : forall r, mapm conv l = Ok r -> forall k j, In (k, j) l -> exists x, f j = Ok x.
Proof.
  induction l as [|[k0 j0] l IH]; intros r H k j Hin; [destruct Hin|]. cbn [mapm fst snd] in H. destruct (f j0) as [x0|] eqn:E0; [|discriminate]. cbn [bind] in H.
  destruct (mapm conv l) as [r'|] eqn:E; [|discriminate]. destruct Hin as [[= <- <-]|Hin]; [exists x0; exact E0|]. exact (IH _ eq_refl _ _ Hin).
Qed.
Lemma mapm_all (l : list (list N * jval)) : (forall k j, In (k, j) l -> exists x, f j = Ok x) -> exists r, mapm conv l = Ok r.
Proof.
  induction l as [|[k0 j0] l IH]; intros H; [exists []; reflexivity|]. cbn [mapm fst snd]. destruct (H k0 j0 (or_introl eq_refl)) as (x & ->). cbn [bind].
  destruct IH as (r & E); [intros k j Hk; exact (H k j (or_intror Hk))|]. rewrite E. eexists. reflexivity.
Qed.
Lemma mapm_dget (l : list (list N * jval)) : forall r, mapm conv l = Ok r -> forall k, dget k r = match dget k l with Some j => match f j with Ok x => Some x | Err _ => None end | None => None end.
Proof.
  induction l as [|[k0 j0] l IH]; intros r H k; [injection H as <-; reflexivity|]. cbn [mapm fst snd] in H. destruct (f j0) as [x0|] eqn:E0; [|discriminate]. cbn [bind] in H.
  destruct (mapm conv l) as [r'|] eqn:E; [|discriminate]. cbn [bind] in H. injection H as <-. cbn [dget]. destruct (str_eqb k k0); [rewrite E0; reflexivity|]. exact (IH _ eq_refl k).
Qed.
Lemma mapm_same (x y : list (list N * jval)) r : NoDup (map fst y) -> same_map x y -> mapm conv x = Ok r -> exists r', mapm conv y = Ok r' /\ forall k, dget k r' = dget k r.
Proof.
  intros Hn Hs H. destruct (mapm_all y) as (r' & E).
  - intros k j Hin. apply (mapm_in _ _ H k). pose proof (Hs k) as Hk. rewrite (OrgFormProofs.in_dget _ _ _ Hn Hin) in Hk. exact (OrgFormProofs.dget_in _ _ Hk).
  - exists r'. split; [exact E|]. intros k. rewrite (mapm_dget _ _ E), (mapm_dget _ _ H), (Hs k). reflexivity.
Qed.
End Data.

(** the depth of a document *)
Lemma fold_max_le (A B : Type) (f : A -> nat) (g : B -> nat) (l : list A) (m : list B) : (forall x, In x l -> exists y, In y m /\ (f x <= g y)%nat) ->
  (fold_right (fun x n => Nat.max (f x) n) 0 l <= fold_right (fun y n => Nat.max (g y) n) 0 m)%nat.
Proof.
  induction l as [|x l IH]; intros H; cbn [fold_right]; [lia|].
  destruct (H x (or_introl eq_refl)) as (y & Hy & Hle). specialize (IH (fun z Hz => H z (or_intror Hz))).
  assert (forall m, In y m -> (g y <= fold_right (fun y n => Nat.max (g y) n) 0 m)%nat) as K.
  { clear. induction m as [|z m IHm]; intros Hin; [destruct Hin|]. cbn [fold_right]. destruct Hin as [->|Hin]; [lia|]. specialize (IHm Hin). lia. }
  specialize (K m Hy). lia.
Qed.
Lemma depth_le (d e : list (list N * jval)) : (forall k v, In (k, v) d -> exists k' w, In (k', w) e /\ (jdepth v <= jdepth w)%nat) -> (jdepth (Jobj d) <= jdepth (Jobj e))%nat.
Proof.
  intros H. cbn [jdepth]. apply le_n_S. apply (fold_max_le _ _ (fun e : list N * jval => jdepth (snd e)) (fun e : list N * jval => jdepth (snd e))). intros [k v] Hin. destruct (H k v Hin) as (k' & w & Hw & Hle). exists (k', w). auto.
Qed.
Lemma map_depth (x y : list (list N * jval)) : NoDup (map fst x) -> same_map x y -> (jdepth (Jobj x) <= jdepth (Jobj y))%nat.
Proof.
  intros Hn Hs. apply depth_le. intros k v Hin. exists k, v. split; [|lia]. apply OrgFormProofs.dget_in. rewrite <- (Hs k). apply OrgFormProofs.in_dget; assumption.
Qed.
Lemma doc_depth d e : NoDup (map fst d) -> distinct_data (Jobj d) -> distinct_data (Jobj e) -> same_document (Jobj d) (Jobj e) -> (exists x, dget fe_data d = Some (Jobj x)) -> jdepth (Jobj d) = jdepth (Jobj e).
Proof.
  intros Hn Hd He (da & db & [= <-] & [= <-] & Hk & Ho & Hx) (x & Ex). destruct (Hx x Ex) as (y & Ey & Hs).
  assert (Hne : NoDup (map fst e)) by (rewrite <- Hk; exact Hn).
  assert (Nx : NoDup (map fst x)) by (apply (Hd d x eq_refl Ex)). assert (Ny : NoDup (map fst y)) by (apply (He e y eq_refl Ey)).
  apply Nat.le_antisymm; apply depth_le; intros k v Hin; exists k.
  - apply (OrgFormProofs.in_dget _ _ _ Hn) in Hin. destruct (str_eqb k fe_data) eqn:E.
    + apply str_eqb_spec in E. subst k. exists (Jobj y). split; [apply OrgFormProofs.dget_in; exact Ey|]. assert (v = Jobj x) as -> by congruence. apply map_depth; assumption.
    + apply str_eqb_neq in E. exists v. split; [|lia]. apply OrgFormProofs.dget_in. rewrite <- (Ho k E). exact Hin.
  - apply (OrgFormProofs.in_dget _ _ _ Hne) in Hin. destruct (str_eqb k fe_data) eqn:E.
    + apply str_eqb_spec in E. subst k. exists (Jobj x). split; [apply OrgFormProofs.dget_in; exact Ex|]. assert (v = Jobj y) as -> by congruence. apply map_depth; [assumption|]. intros k. symmetry. apply Hs.
    + apply str_eqb_neq in E. exists v. split; [|lia]. apply OrgFormProofs.dget_in. rewrite (Ho k E). exact Hin.
Qed.

Lemma enc_elem_same props cmds (d d' : list (list N * edata)) : (forall k, dget k d' = dget k d) -> forall x path, enc_elem props cmds d' path x = enc_elem props cmds d path x.
Proof.
  intros H. fix IH 1. intros [name k child] path. cbn [enc_elem].
  assert (B : base_enc props cmds d' k path name = base_enc props cmds d k path name) by (unfold base_enc; rewrite H; reflexivity). rewrite B. clear B.
  apply bind_cong; [reflexivity|]. intros raw. destruct (kids_at k) as [at_|]; [|reflexivity]. destruct child as [l|]; [|reflexivity]. destruct l as [|x0 l0]; [reflexivity|].
  apply bind_cong; [reflexivity|]. intros idx. apply bind_cong; [|reflexivity].
  rewrite IH. apply bind_cong; [reflexivity|]. intros z0. apply bind_cong; [|reflexivity]. induction l0 as [|x r IHl]; [reflexivity|]. rewrite IH. apply bind_cong; [reflexivity|]. intros z. rewrite IHl. reflexivity.
Qed.
Lemma enc_items_same props cmds (d d' : list (list N * edata)) path l : (forall k, dget k d' = dget k d) -> enc_items props cmds d' path l = enc_items props cmds d path l.
Proof.
  intros H. unfold enc_items. induction l as [|x l IH]; [reflexivity|]. cbn [mapm]. rewrite (enc_elem_same _ _ _ _ H), IH. reflexivity.
Qed.
Lemma elems_encode_same parent pa pr cm tr d d' raw : (forall k, dget k d' = dget k d) -> elems_encode parent (mkelems pa pr cm tr d') raw = elems_encode parent (mkelems pa pr cm tr d) raw.
Proof.
  intros H. unfold elems_encode. cbn [fe_commands fe_props fe_params FormElem.fe_tree FormElem.fe_data].
  apply bind_cong; [reflexivity|]. intros [r1 cmds]. apply bind_cong; [reflexivity|]. intros [r2 props]. apply bind_cong; [reflexivity|]. intros cidx. apply bind_cong; [reflexivity|]. intros root. apply bind_cong; [reflexivity|]. intros idx.
  apply bind_cong; [reflexivity|]. intros c. apply bind_cong; [|reflexivity]. destruct (FormCode.is_str c kids_mark); [|reflexivity]. destruct tr as [t|]; [|reflexivity]. rewrite (enc_items_same _ _ _ _ _ _ H). reflexivity.
Qed.
Lemma enc_pages_same (d d' : dict27) path rd : (forall k, dget k d' = dget k d) -> enc_pages d' path rd = enc_pages d path rd.
Proof.
  intros H. unfold enc_pages. apply bind_cong; [reflexivity|]. intros off. apply bind_cong; [reflexivity|]. intros p. apply bind_cong; [reflexivity|]. intros pl. apply bind_cong; [reflexivity|]. intros _. rewrite H.
  destruct (dget _ d) as [[| pages|]|]; try reflexivity. apply bind_cong; [|reflexivity]. induction pages as [|n r IH]; [reflexivity|]. cbn [enc_page_list]. rewrite H, IH. reflexivity.
Qed.
Lemma enc_elem27_same names (d d' : dict27) : (forall k, dget k d' = dget k d) -> forall x path, enc_elem27 names d' path x = enc_elem27 names d path x.
Proof.
  intros H. fix IH 1. intros [name ty page child] path. cbn [enc_elem27]. rewrite H. destruct (dget (item_key path page name) d) as [[? ? ?|?|i p raw prop]|]; [reflexivity|reflexivity| |reflexivity].
  apply bind_cong; [reflexivity|]. intros _. apply bind_cong; [reflexivity|]. intros id. destruct (str_eqb ty n_panel); [|reflexivity]. apply bind_cong; [reflexivity|]. intros _. destruct child as [l|]; [|reflexivity].
  apply bind_cong; [reflexivity|]. intros el. apply bind_cong; [reflexivity|]. intros p2. apply bind_cong; [reflexivity|]. intros pd. apply bind_cong; [reflexivity|]. intros pd'. rewrite (enc_pages_same _ _ _ _ H). apply bind_cong; [reflexivity|]. intros pd2.
  apply bind_cong; [reflexivity|]. intros p3. apply bind_cong; [reflexivity|]. intros la. apply bind_cong; [reflexivity|]. intros la'. apply bind_cong; [|reflexivity].
  generalize (inner_path (calc_id [path; opt_str page; name])). intros inner. induction l as [|x r IHl]; [reflexivity|]. rewrite IH. apply bind_cong; [reflexivity|]. intros z. rewrite IHl. reflexivity.
Qed.
Lemma elems27_encode_same pr tr d d' raw : (forall k, dget k d' = dget k d) -> elems27_encode (mkelems27 pr tr d') raw = elems27_encode (mkelems27 pr tr d) raw.
Proof.
  intros H. unfold elems27_encode. cbn [f7_props f7_tree f7_data].
  do 12 (apply bind_cong; [reflexivity|]; intros ?). rewrite (enc_pages_same _ _ _ _ H). do 4 (apply bind_cong; [reflexivity|]; intros ?). apply bind_cong; [|reflexivity].
  induction tr as [|tx tl0 IHt]; [reflexivity|]. cbn [mapm]. rewrite (enc_elem27_same _ _ _ H), IHt. reflexivity.
Qed.

(** ** The file of elements with its data in another order *)
Section Docs.
Variables d e : list (list N * jval).
Hypothesis Hn : NoDup (map fst d).
Hypothesis Hd : distinct_data (Jobj d).
Hypothesis He : distinct_data (Jobj e).
Hypothesis Hs : same_document (Jobj d) (Jobj e).
Lemma field_same k : k <> fe_data -> dget k e = dget k d.
Proof. destruct Hs as (da & db & [= <-] & [= <-] & _ & H & _). intros Hk. symmetry. apply H. exact Hk. Qed.
Lemma data_same x : dget fe_data d = Some (Jobj x) -> exists y, dget fe_data e = Some (Jobj y) /\ same_map x y /\ NoDup (map fst y).
Proof.
  destruct Hs as (da & db & [= <-] & [= <-] & _ & _ & H). intros Hx. destruct (H x Hx) as (y & Ey & Hm). exists y. split; [exact Ey|]. split; [exact Hm|]. exact (He e y eq_refl Ey).
Qed.
Lemma felems_same fe : felems_of (Jobj d) = Ok fe -> exists fe', felems_of (Jobj e) = Ok fe' /\ forall parent raw, elems_encode parent fe' raw = elems_encode parent fe raw.
Proof.
  unfold felems_of. cbn [jdict bind].
  rewrite (field_same FormElem.k_params), (field_same FormElem.k_props), (field_same FormElem.k_commands), (field_same FormElem.k_tree) by discriminate.
  intros H. destruct (jlist_of par_of _) as [pa|]; [|discriminate]. destruct (jlist_of prop_of_json _) as [pr|]; [|discriminate]. destruct (jlist_of cmd_of_json _) as [cm|]; [|discriminate]. cbn [bind] in *.
  change FormElem.k_data with fe_data in *. destruct (dget fe_data d) as [[| | | | |dd]|] eqn:Ed; try (destruct (jlist_of (item_of (jdepth (Jobj d))) (dget FormElem.k_tree d)); discriminate H).
  destruct (data_same dd Ed) as (y & Ey & Hm & Ny). rewrite Ey. rewrite <- (doc_depth d e Hn Hd He Hs (ex_intro _ dd Ed)).
  destruct (jlist_of (item_of (jdepth (Jobj d))) (dget FormElem.k_tree d)) as [tr|]; [|discriminate]. cbn [bind] in *.
  destruct (mapm _ dd) as [r|] eqn:E; [|discriminate]. cbn [bind] in H. destruct (mapm_same _ edata_of dd y r Ny Hm E) as (r' & E' & Hr). rewrite E'. cbn [bind].
  eexists. split; [reflexivity|]. intros parent raw. injection H as <-. apply elems_encode_same. exact Hr.
Qed.
Lemma felems27_same fe : felems27_of (Jobj d) = Ok fe -> exists fe', felems27_of (Jobj e) = Ok fe' /\ forall raw, elems27_encode fe' raw = elems27_encode fe raw.
Proof.
  unfold felems27_of. cbn [jdict bind]. rewrite (field_same FormElem.k_props), (field_same FormElem.k_tree) by discriminate.
  intros H. destruct (match dget FormElem.k_props d with Some p => _ | None => _ end) as [pr|]; [|discriminate]. cbn [bind] in *.
  change FormElem.k_data with fe_data in *. destruct (dget FormElem.k_tree d) as [[| | | |l|]|]; try discriminate H.
  destruct (dget fe_data d) as [[| | | | |dd]|] eqn:Ed; try (destruct (mapm (titem_of (jdepth (Jobj d))) l); discriminate H).
  destruct (data_same dd Ed) as (y & Ey & Hm & Ny). rewrite Ey. rewrite <- (doc_depth d e Hn Hd He Hs (ex_intro _ dd Ed)).
  destruct (mapm (titem_of (jdepth (Jobj d))) l) as [tr|]; [|discriminate]. cbn [bind] in *.
  destruct (mapm _ dd) as [r|] eqn:E; [|discriminate]. cbn [bind] in H. destruct (mapm_same _ entry_of dd y r Ny Hm E) as (r' & E' & Hr). rewrite E'. cbn [bind].
  eexists. split; [reflexivity|]. intros raw. injection H as <-. apply elems27_encode_same. exact Hr.
Qed.
Lemma elements_same auto old_enc parent k x r : (auto = false \/ k = KManaged) -> elements_back auto old_enc parent k (Jobj d) x = Ok r -> elements_back auto old_enc parent k (Jobj e) x = Ok r.
Proof.
  intros Ha H. unfold elements_back in *. destruct k as [|at_ ver].
  - destruct (felems_of (Jobj d)) as [fe|] eqn:E; [|discriminate]. destruct (felems_same fe E) as (fe' & -> & Hf). cbn [bind] in *. destruct (vlist x) as [l|]; [|discriminate]. cbn [bind] in *. rewrite Hf. exact H.
  - destruct Ha as [->|Ha]; [|discriminate]. destruct (felems27_of (Jobj d)) as [fe|] eqn:E; [|discriminate]. destruct (felems27_same fe E) as (fe' & -> & Hf). cbn [bind] in *. destruct (vlist x) as [l|]; [|discriminate]. cbn [bind] in *. rewrite Hf. exact H.
Qed.
End Docs.

Section Form.
Variable os : platform.
Variable repr : val -> list N.
Variable auto : bool.
Variable old_enc : nat -> jval -> val -> res val.
Ltac lit := unfold nb, source_name, dotted; rewrite ?ends_app; reflexivity.
Lemma form_encode_same c options pid parent (a b out : folder) : same_files (f_name c) a b -> form_encode os repr auto old_enc c options pid parent b out = form_encode os repr auto old_enc c options pid parent a out.
Proof.
  intros S. unfold form_encode. rewrite !(json_read_same _ a b S) by lit. destruct (json_read a _) as [jids|e]; [|reflexivity]. destruct (json_read a _) as [jh|e]; [|reflexivity].
  repeat first [ reflexivity | rewrite (encode_code_same _ a b S) | apply bind_cong; [first [reflexivity|idtac]|let x := fresh "x" in intros x] ].
  match goal with |- (let (_, _) := ?z in _) = _ => destruct z as [? k] end. destruct k as [k|]; [|reflexivity]. unfold put_elements. rewrite (json_read_same _ a b S) by lit. reflexivity.
Qed.
Lemma read_json_file (a : folder) n bs j : dget n a = Some (TFile bs) -> json_file bs j -> json_read a n = Ok j.
Proof. intros H (t & E1 & E2). unfold json_read. rewrite H, E1, E2. reflexivity. Qed.
Lemma bind_ok (A B : Type) (r : res A) (k k' : A -> res B) y : (forall x, r = Ok x -> k x = Ok y -> k' x = Ok y) -> bind r k = Ok y -> bind r k' = Ok y.
Proof. intros H. destruct r as [x|]; [|discriminate]. cbn [bind]. apply H. reflexivity. Qed.
Lemma type_again d x : dget (u "Тип формы"%string) (header_of d) = Some x -> forall uuid, dget k_ftype (dset s_uuid (VStr uuid) (info_back d (header_of d))) = Some x.
Proof.
  intros H uuid. rewrite dget_dset_other by discriminate. change (u "Тип формы") with k_ftype in H. unfold info_back. destruct (dget (k_info m_obj) (rev d)) as [[| | | | |]|]; try exact H; rewrite dget_dset_other by discriminate; exact H.
Qed.
Lemma form_encode_again c options pid parent (a b out : folder) r : again auto (f_name c) a b -> form_encode os repr auto old_enc c options pid parent a out = Ok r -> form_encode os repr auto old_enc c options pid parent b out = Ok r.
Proof.
  intros [S|(_ & Hm & Hr & ba & bb & d & e & Ea & Eb & Ja & Jb & Nd & Dd & De & Sd)]; [rewrite (form_encode_same _ _ _ _ _ _ _ S); tauto|].
  change (u "elem.json") with x_elem in *.
  assert (Hid : json_read b (dotted (f_name c) x_idjson) = json_read a (dotted (f_name c) x_idjson)).
  { unfold json_read. rewrite (same_not _ _ _ _ (Hr (dotted (f_name c) x_idjson) ltac:(intros A; apply dotted_inj in A; discriminate))); [reflexivity|lit]. }
  assert (Hj : json_read b (dotted (f_name c) x_json) = json_read a (dotted (f_name c) x_json)).
  { unfold json_read. rewrite (same_not _ _ _ _ (Hr (dotted (f_name c) x_json) ltac:(intros A; apply dotted_inj in A; discriminate))); [reflexivity|lit]. }
  unfold form_encode. rewrite Hid, Hj. destruct (json_read a (dotted (f_name c) x_idjson)) as [jids|er]; [|tauto]. destruct (json_read a (dotted (f_name c) x_json)) as [jh|er] eqn:Ejh; [|tauto].
  apply bind_ok. intros ids Eids. apply bind_ok. intros h Eh. apply bind_ok. intros uuid Euuid. apply bind_ok. intros tree Etree. apply bind_ok. intros root Eroot. apply bind_ok. intros ver Ever. apply bind_ok. intros name Ename. apply bind_ok. intros ov Eov.
  assert (Hc : forall codes, encode_code b (f_name c) form_ext (dset s_uuid (VStr uuid) h) codes = encode_code a (f_name c) form_ext (dset s_uuid (VStr uuid) h) codes).
  { intros codes. unfold form_ext. cbn [encode_code]. apply bind_cong; [|reflexivity]. unfold encode_one. destruct (dget (k_info m_obj) _) as [i|]; [|reflexivity]. destruct (vtruthy i); [|reflexivity].
    assert (K : forall x, same_file (f_name c) (source_name (f_name c) m_obj x) a b).
    { intros x. apply Hr. unfold source_name, dotted. intros A. rewrite <- app_assoc in A. apply app_inv_head in A. discriminate. }
    destruct (enc_encrypted _) as [e0|] eqn:Een; [|rewrite (same_sig _ _ _ _ (K _)); reflexivity]. unfold bin_read. rewrite (same_not _ _ _ _ (K e0) (encrypted_nb _ _ Een _)). reflexivity. }
  rewrite Hc. apply bind_ok. intros codes Ecodes. apply bind_ok. intros ty Ety. apply bind_ok. intros form Eform. apply bind_ok. intros form2 Eform2.
  intros H. destruct (put_elements repr auto old_enc parent ty a (f_name c) form2) as [f3|] eqn:E3; [|discriminate].
  assert (E4 : put_elements repr auto old_enc parent ty b (f_name c) form2 = Ok f3); [|rewrite E4; exact H].
  clear H. unfold put_elements in *. destruct (decoder_of repr ty form2) as [[dn k]|] eqn:Edec; [|discriminate]. cbn [bind] in *. destruct k as [k|]; [|exact E3].
  destruct form2 as [|[| |[|x rr]] rest]; try exact E3.
  rewrite (read_json_file _ _ _ _ Ea Ja) in E3. rewrite (read_json_file _ _ _ _ Eb Jb). cbn [bind] in *.
  destruct (elements_back auto old_enc parent k (Jobj d) x) as [z|] eqn:Ez; [|discriminate].
  rewrite (elements_same d e Nd Dd De Sd auto old_enc parent k x z); [exact E3| |exact Ez].
  destruct Hm as [Hm|(hd & Hhd & Hty)]; [left; exact Hm|right]. change (u "json") with x_json in Hhd. rewrite Ejh in Hhd. injection Hhd as ->. injection Eh as <-.
  unfold field in Ety. rewrite (type_again _ _ Hty) in Ety. injection Ety as <-. cbn [decoder_of] in Edec. destruct (truthy (VList (x :: rr))) eqn:Et; [|cbn in Edec; discriminate].
  cbn [negb vstr bind] in Edec. change (dget [49] decoders) with (Some KManaged) in Edec. injection Edec as _ <-. reflexivity.
Qed.
End Form.

(** ** All classes *)
Section All.
Variable os : platform.
Variable alnum : N -> bool.
Variable lower : list N -> list N.
Variable auto : bool.
Lemma real_rd_again t (a b : folder) : again auto t a b -> real_rd t b = real_rd t a.
Proof.
  intros [S|(_ & _ & Hr & _)]; [exact (real_rd_same _ _ _ S _)|].
  assert (K : forall x, x <> u "elem.json" -> nb (dotted t x) -> json_read b (dotted t x) = json_read a (dotted t x)).
  { intros x Hx Hn. unfold json_read. rewrite (same_not _ _ _ _ (Hr (dotted t x) (fun A => Hx (dotted_inj _ _ _ A))) Hn). reflexivity. }
  unfold real_rd. rewrite !K by first [discriminate|unfold nb, dotted; rewrite ?ends_app; reflexivity]. reflexivity.
Qed.
Lemma forms_not_classes t : In t form_types -> existsb (fun c => str_eqb t (c_name c)) classes = false.
Proof.
  intros H. assert (Z : forallb (fun t => negb (existsb (fun c => str_eqb t (c_name c)) classes)) form_types = true) by (vm_compute; reflexivity).
  rewrite forallb_forall in Z. specialize (Z t H). apply negb_true_iff in Z. exact Z.
Qed.
Lemma info_data (q : tag) (own : folder) : i_data (info_of real_rd q own) = own /\ i_type (info_of real_rd q own) = fst q.
Proof. unfold info_of. destruct (real_rd (fst q) own) as [[? ?]|]; split; reflexivity. Qed.
Lemma all_plain : forallb class_plain classes = true. Proof. vm_compute. reflexivity. Qed.
Lemma pick_plain t tree l c : incl l classes -> pick t tree l = Some c -> c_name c = t /\ class_plain c = true.
Proof.
  intros Hl H. unfold pick in H. apply find_some in H. destruct H as [H E]. apply andb_true_iff in E. destruct E as [E _]. apply str_eqb_spec in E. split; [congruence|]. pose proof all_plain as Z. rewrite forallb_forall in Z. exact (Z c (Hl c H)).
Qed.
Lemma real_enc_again version other_enc t n (a b : folder) idx r : by_name auto other_enc -> again auto t a b ->
  real_enc os alnum lower version other_enc (info_of real_rd (t, n) a) idx = Ok r -> real_enc os alnum lower version other_enc (info_of real_rd (t, n) b) idx = Ok r.
Proof.
  intros Hb Ha. unfold real_enc. destruct (info_data (t, n) a) as [-> ->]. destruct (info_data (t, n) b) as [-> ->]. cbn [fst].
  destruct (existsb _ classes) eqn:E; [|apply Hb; exact Ha]. destruct Ha as [S|(Hf & _)]; [|rewrite (forms_not_classes _ Hf) in E; discriminate].
  rewrite (source_tree_same t a b S). apply bind_ok. intros tree _.
  destruct (pick t tree simple_classes) as [c|] eqn:E1; [destruct (pick_plain t tree simple_classes c ltac:(unfold classes; intros z Hz; rewrite !in_app_iff; tauto) E1) as [P1 P2]; rewrite (build_one_same t a b S _ _ _ _ _ _ P1 P2); tauto|].
  destruct (pick t tree container_classes) as [c|] eqn:E2; [destruct (pick_plain t tree container_classes c ltac:(unfold classes; intros z Hz; rewrite !in_app_iff; tauto) E2) as [P1 P2]; rewrite (build_one_same t a b S _ _ _ _ _ _ P1 P2); tauto|].
  destruct (pick t tree inner_classes) as [c|] eqn:E3; [destruct (pick_plain t tree inner_classes c ltac:(unfold classes; intros z Hz; rewrite !in_app_iff; tauto) E3) as [P1 P2]; rewrite (build_one_same t a b S _ _ _ _ _ _ P1 P2)|]; tauto.
Qed.
Lemma forms_by_name repr old_enc cont : by_name auto (forms_enc os repr auto old_enc cont).
Proof.
  intros t n a b r Ha. unfold forms_enc. destruct (info_data (t, n) a) as [-> ->]. destruct (info_data (t, n) b) as [-> ->]. cbn [fst]. destruct (form_of t) as [c|] eqn:Ec; [|tauto].
  assert (Et : f_name c = t) by (unfold form_of in Ec; apply find_some in Ec; destruct Ec as [_ Ec]; apply str_eqb_spec in Ec; symmetry; exact Ec).
  assert (Eu : i_uuid (info_of real_rd (t, n) b) = i_uuid (info_of real_rd (t, n) a)) by (unfold info_of; cbn [fst]; rewrite (real_rd_again _ _ _ Ha); destruct (real_rd t a) as [[? ?]|]; reflexivity).
  rewrite Eu. destruct (form_encode os repr auto old_enc c None [] (cont (i_uuid (info_of real_rd (t, n) a))) a []) as [o|] eqn:E; [|discriminate].
  rewrite <- Et in Ha. rewrite (form_encode_again os repr auto old_enc c None [] _ a b [] o Ha E). tauto.
Qed.
Lemma again_refl t (a : folder) : again auto t a a. Proof. left. intros n. left. reflexivity. Qed.
Lemma reads_reads_again (ss : sources folder) cs : reads_all real_lists real_rd ss cs -> reads_again auto ss cs.
Proof. intros H. exists ss. split; [|exact H]. split; [intros p b Hb; exists b; split; [exact Hb|apply again_refl]|intros p a Ha; exists a; exact Ha]. Qed.
End All.
