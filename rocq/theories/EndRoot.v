(** The names of the source files of a root: none is a file of elements, none is the file of another root. *)
From Coq Require Import String Permutation Lia.
From Verif Require Import PyBase PyText Utf Brace JsonText JsonObj Header Pipeline Codecs ObjCode Payload MetaObj EncodeLoop Types Include Tree Real Spec_Root Root Spec_Code Spec_OrgForm Spec_OrgTree Spec_Again Spec_EndToEnd Classes MetaObj.
Open Scope list_scope.
Open Scope N_scope.

Definition source_names (c : class) : list (list N) :=
  dotted (c_name c) x_json :: flat_map (fun m => map (source_name (c_name c) m) (ObjCode.s_bsl :: encrypted_types)) (map fst (c_ext c)).
Definition part_names (fname : list N) (p : part) : list (list N) :=
  match p with
  | PHelp _ f => let f := match f with Some f => f | None => fname end in [dotted f s_html; dotted f s_bin]
  | PImage _ e => [e]
  | PJson k => [dotted (dotted fname k) x_json]
  | _ => []
  end.
Definition simple_part (p : part) : bool := match p with PHelp _ _ | PImage _ _ | PJson _ | PStored _ | PForm1 => true | _ => false end.
Definition root_names (k : rkind) : list (list N) :=
  let c := root_class k in
  source_names c ++ flat_map (part_names (c_name c)) (c_parts c ++ c_late c) ++ match k with RExt => [f_version_bin] | _ => [] end.

(** only files, with names in [L] *)
Definition files_of (L : list (list N)) (fo : folder) : Prop := forall n t, dget n fo = Some t -> In n L /\ exists b, t = TFile b.
Lemma files_nil L : files_of L []. Proof. intros n t H. discriminate. Qed.
Lemma files_dset L n b fo : files_of L fo -> In n L -> files_of L (dset n (TFile b) fo).
Proof.
  intros H Hn m t Hm. destruct (str_eqb m n) eqn:E.
  - apply str_eqb_spec in E. subst m. rewrite dget_dset_same in Hm. injection Hm as <-. split; [exact Hn|exists b; reflexivity].
  - rewrite dget_dset_other in Hm by (intros ->; rewrite str_eqb_refl in E; discriminate). exact (H _ _ Hm).
Qed.
Lemma files_put L n b fo fo' : files_of L fo -> In n L -> put_file n b fo = Ok fo' -> files_of L fo'.
Proof.
  intros H Hn. unfold put_file. destruct (dget n fo) as [[|]|] eqn:E; try discriminate; intros Q; injection Q as <-; apply files_dset; assumption.
Qed.
Lemma files_copy L s b n fo fo' : files_of L fo -> In n L -> copy_file s b fo n = Ok fo' -> files_of L fo'.
Proof.
  intros H Hn. unfold copy_file. destruct (dget n fo) as [t|] eqn:E.
  - destruct (H _ _ E) as (_ & x & ->). intros Q; injection Q as <-; apply files_dset; assumption.
  - intros Q; injection Q as <-; apply files_dset; assumption.
Qed.
Lemma files_json os j n L fo fo' : files_of L fo -> In n L -> json_write os j fo n = Ok fo' -> files_of L fo'.
Proof. intros H Hn. unfold json_write. destruct (utf8_encode _); [|discriminate]. apply files_put; assumption. Qed.
Lemma files_txt os c n e L fo fo' : files_of L fo -> In n L -> txt_write os c fo n e = Ok fo' -> files_of L fo'.
Proof.
  intros H Hn. unfold txt_write. destruct c; [intros Q; injection Q as <-; exact H| |discriminate]. destruct (text_store _ _ _); [|discriminate]. apply files_put; assumption.
Qed.
Lemma files_bin c n L fo fo' : files_of L fo -> In n L -> bin_write c fo n = Ok fo' -> files_of L fo'.
Proof. intros H Hn. unfold bin_write. destruct c; try discriminate. apply files_put; assumption. Qed.
Ltac step H := match type of H with
  | bind ?r _ = Ok _ => let x := fresh "x" in let E := fresh "E" in destruct r as [x|] eqn:E; [cbn [bind] in H|discriminate H]
  | (match ?p with (_, _) => _ end) = Ok _ => destruct p eqn:?
  end.
Lemma files_part os alnum L p src uuid own fname h own' h' : simple_part p = true -> (forall n, In n (part_names fname p) -> In n L) -> files_of L own ->
  part_out os alnum p src uuid own fname h = Ok (own', h') -> files_of L own'.
Proof.
  intros Hs Hl Hf H. destruct p; try discriminate; cbn [part_out] in H.
  - unfold html_decode in H. destruct (dget (dotted uuid n) src) as [[bs|]|]; [|discriminate|injection H as <- _; exact Hf].
    destruct (max_html <? N.of_nat (length bs)).
    + step H. injection H as <- _. refine (files_copy _ _ _ _ _ _ Hf _ E). apply Hl. right. left. reflexivity.
    + step H. step H. step H. step H. destruct o as [b|]; [|injection E1 as <-; injection H as <- _; exact Hf].
      injection H as <- _. refine (files_put _ _ _ _ _ Hf _ E1). apply Hl. left. reflexivity.
  - unfold image_out in H. destruct (brace_read src (dotted uuid n)) as [data|e]; [|destruct e; try discriminate; injection H as <- _; exact Hf].
    step H. step H. step H. injection H as <- _. destruct o as [b|]; [|injection E0 as <-; exact Hf]. refine (files_put _ _ _ _ _ Hf _ E0). apply Hl. left. reflexivity.
  - destruct (brace_read src (dotted uuid n)) as [v|e]; [|destruct e; try discriminate; injection H as <- _; exact Hf].
    step H. injection H as <- _. refine (files_json _ _ _ _ _ _ Hf _ E). apply Hl. left. reflexivity.
  - destruct (brace_read src (dotted uuid s_one)) as [v|e]; [|destruct e; try discriminate]; injection H as <- _; exact Hf.
  - destruct (dget (dotted uuid n) src) as [[bs|]|]; [step H| |]; injection H as <- _; exact Hf.
Qed.
Lemma files_parts os alnum L src uuid fname : forall ps own h own' h', forallb simple_part ps = true -> (forall n, In n (flat_map (part_names fname) ps) -> In n L) -> files_of L own ->
  parts_out os alnum ps src uuid own fname h = Ok (own', h') -> files_of L own'.
Proof.
  induction ps as [|p ps IH]; intros own h own' h' Hs Hl Hf H; cbn [parts_out] in H; [injection H as <- _; exact Hf|].
  cbn [forallb] in Hs. apply andb_prop in Hs. destruct Hs as [S1 S2]. step H. step H.
  refine (IH _ _ _ _ S2 _ _ H); [intros n Hn; apply Hl; cbn [flat_map]; apply in_or_app; right; exact Hn|].
  refine (files_part _ _ _ _ _ _ _ _ _ _ _ S1 _ Hf E). intros n Hn. apply Hl. cbn [flat_map]. apply in_or_app. left. exact Hn.
Qed.
Lemma dset_keys {V} k (v : V) : forall d x, In x (map fst (dset k v d)) -> x = k \/ In x (map fst d).
Proof.
  induction d as [|[a b] d IH]; intros x H; cbn in H; [destruct H as [<-|[]]; left; reflexivity|]. destruct (str_eqb k a) eqn:E; cbn in H |- *.
  - tauto.
  - destruct H as [<-|H]; [right; left; reflexivity|]. destruct (IH x H) as [->|Q]; tauto.
Qed.
Lemma decode_code_keys uuid src uncomment : forall ext h codes h' codes', decode_code uuid src ext uncomment h codes = Ok (h', codes') ->
  forall x, In x (map fst codes') -> In x (map fst codes) \/ In x (map fst ext).
Proof.
  induction ext as [|[name suffix] ext IH]; intros h codes h' codes' H x Hx; cbn [decode_code] in H; [injection H as <- <-; left; exact Hx|].
  step H. step H. destruct (IH _ _ _ _ H _ Hx) as [Q|Q]; [|right; right; exact Q]. cbn [map fst In].
  destruct (dget name codes); [injection E as <- <-; left; exact Q|]. unfold decode_one in E.
  destruct (dget (dotted uuid suffix) src) as [[bs|fo]|]; [| |injection E as <- <-; left; exact Q].
  - step E. step E. injection E as <- <-. apply dset_keys in Q. destruct Q as [->|Q]; tauto.
  - step E. destruct (read_raw_code fo s_text uncomment) as [[c e]|e].
    + injection E as <- <-. apply dset_keys in Q. destruct Q as [->|Q]; tauto.
    + destruct e; try discriminate. destruct (find_encrypted encrypted_types fo) as [[t b]|]; [|discriminate]. injection E as <- <-. apply dset_keys in Q. destruct Q as [->|Q]; tauto.
Qed.
Lemma files_codes os L h fname : forall codes own own', (forall m, In m (map fst codes) -> forall e, In e (ObjCode.s_bsl :: encrypted_types) -> In (source_name fname m e) L) -> files_of L own ->
  write_decode_code os h codes fname own = Ok own' -> files_of L own'.
Proof.
  induction codes as [|[m c] codes IH]; intros own own' Hl Hf H; cbn [write_decode_code] in H; [injection H as <-; exact Hf|].
  step H. refine (IH _ _ _ _ H); [intros k Hk; apply Hl; right; exact Hk|]. destruct (has_code c); [|injection E as <-; exact Hf].
  destruct (enc_encrypted (enc_of h m)) as [e|] eqn:Ee.
  - refine (files_bin _ _ _ _ _ Hf _ E). apply Hl; [left; reflexivity|]. right. unfold enc_encrypted in Ee. destruct (enc_of h m) as [[| s |]|]; try discriminate. destruct (is_encrypted s) eqn:Ei; [|discriminate]. injection Ee as <-.
    unfold is_encrypted in Ei. apply existsb_exists in Ei. destruct Ei as (y & Hy & Es). apply str_eqb_spec in Es. subst y. exact Hy.
  - refine (files_txt _ _ _ _ _ _ _ Hf _ E). apply Hl; left; reflexivity.
Qed.
Lemma in_source k m e : In m (map fst (c_ext (root_class k))) -> In e (ObjCode.s_bsl :: encrypted_types) -> In (source_name (c_name (root_class k)) m e) (root_names k).
Proof. intros Hm He. unfold root_names, source_names. apply in_or_app. left. right. apply in_flat_map. exists m. split; [exact Hm|]. apply in_map. exact He. Qed.
Lemma in_own k : In (dotted (c_name (root_class k)) x_json) (root_names k).
Proof. left. reflexivity. Qed.
Lemma in_parts k n : In n (flat_map (part_names (c_name (root_class k))) (c_parts (root_class k))) -> In n (root_names k).
Proof. intros H. unfold root_names. apply in_or_app. right. apply in_or_app. left. rewrite flat_map_app. apply in_or_app. left. exact H. Qed.
Lemma in_late k n : In n (flat_map (part_names (c_name (root_class k))) (c_late (root_class k))) -> In n (root_names k).
Proof. intros H. unfold root_names. apply in_or_app. right. apply in_or_app. left. rewrite flat_map_app. apply in_or_app. right. exact H. Qed.

Lemma root_files_of os alnum valid auto k prefix version src own ks : root_decode os alnum valid auto k prefix version src = Ok (own, ks) -> files_of (root_names k) own.
Proof.
  assert (S1 : forallb simple_part (c_parts (root_class k)) = true) by (destruct k; reflexivity).
  assert (S2 : forallb simple_part (c_late (root_class k)) = true) by (destruct k; reflexivity).
  intros H. destruct k; cbn [root_decode] in H; unfold config_decode, ext_decode, proc_decode in H; repeat (step H).
  all: injection H as <- _.
  all: match goal with E : write_decode_code _ _ ?codes _ ?o = Ok ?o2 |- files_of (root_names ?k) ?o2 => refine (files_codes _ _ _ _ _ _ _ _ _ E) end.
  all: try (intros m Hm e He; apply in_source; [|exact He]; match goal with E : decode_code _ _ _ _ _ [] = Ok (_, _) |- _ => destruct (decode_code_keys _ _ _ _ _ _ _ _ E _ Hm) as [[]|Q]; exact Q end).
  all: match goal with E : json_write _ _ _ _ = Ok ?o |- files_of (root_names ?k) ?o => refine (files_json _ _ _ _ _ _ _ (in_own _) E); clear E end.
  all: try match goal with E : txt_write _ _ _ _ _ = Ok ?o |- files_of (root_names ?k) ?o => refine (files_txt _ _ _ _ _ _ _ _ _ E); [|apply in_or_app; right; apply in_or_app; right; left; reflexivity] end.
  all: repeat match goal with E : parts_out _ _ (c_late _) _ _ _ _ _ = Ok (?o, _) |- files_of (root_names ?k) ?o => refine (files_parts _ _ _ _ _ _ _ _ _ _ _ S2 (in_late k) _ E); clear E
                     | E : parts_out _ _ (c_parts _) _ _ _ _ _ = Ok (?o, _) |- files_of (root_names ?k) ?o => refine (files_parts _ _ _ _ _ _ _ _ _ _ _ S1 (in_parts k) (files_nil _) E) end.
Qed.
Definition not_elements (n : list N) : bool := ends s_bsl n || negb (ends s_elem n).
Lemma root_names_plain k : forallb not_elements (root_names k) = true.
Proof. destruct k; vm_compute; reflexivity. Qed.
Lemma root_names_other k : forallb (fun n => str_eqb n (c_name (root_class k)) || negb (existsb (str_eqb (dotted n x_json)) (root_names k))) root_files = true.
Proof. destruct k; vm_compute; reflexivity. Qed.
Lemma root_names_bin k : k <> RExt -> existsb (str_eqb f_version_bin) (root_names k) = false.
Proof. intros H. destruct k; [vm_compute; reflexivity|contradiction|vm_compute; reflexivity]. Qed.
Lemma root_elements k own : files_of (root_names k) own -> forall n t, dget n own = Some t -> ~ elements_name n /\ exists b, t = TFile b.
Proof.
  intros H n t Hn. destruct (H _ _ Hn) as [H1 H2]. split; [|exact H2]. intros [E1 E2]. pose proof (root_names_plain k) as P. rewrite forallb_forall in P. specialize (P _ H1). unfold not_elements in P. rewrite E1, E2 in P. discriminate.
Qed.
Lemma root_other k own n : files_of (root_names k) own -> In n root_files -> n <> c_name (root_class k) -> dget (dotted n x_json) own = None.
Proof.
  intros H Hn Hne. destruct (dget (dotted n x_json) own) as [t|] eqn:E; [|reflexivity]. exfalso. destruct (H _ _ E) as [H1 _]. pose proof (root_names_other k) as P. rewrite forallb_forall in P. specialize (P _ Hn). apply orb_prop in P.
  destruct P as [P|P]; [apply str_eqb_spec in P; contradiction|]. apply negb_true_iff in P. assert (Q : existsb (str_eqb (dotted n x_json)) (root_names k) = true) by (apply existsb_exists; exists (dotted n x_json); split; [exact H1|apply str_eqb_refl]). congruence.
Qed.
Lemma root_no_bin k own : files_of (root_names k) own -> k <> RExt -> dget f_version_bin own = None.
Proof.
  intros H Hk. destruct (dget f_version_bin own) as [t|] eqn:E; [|reflexivity]. exfalso. destruct (H _ _ E) as [H1 _]. pose proof (root_names_bin k Hk) as P. assert (Q : existsb (str_eqb f_version_bin) (root_names k) = true) by (apply existsb_exists; exists f_version_bin; split; [exact H1|apply str_eqb_refl]). congruence.
Qed.
Definition module_named (t n : list N) : bool := existsb (fun c => str_eqb n (dotted t (dotted c (u "bsl"%string)))) code_kinds.
Lemma root_names_modules k : forallb (fun n => negb (ends s_bsl n) || module_named (c_name (root_class k)) n) (root_names k) = true.
Proof. destruct k; vm_compute; reflexivity. Qed.
Lemma root_marks k own : files_of (root_names k) own -> marks_in_modules (c_name (root_class k)) own.
Proof.
  intros H n b Hn E. destruct (H _ _ Hn) as [H1 _]. pose proof (root_names_modules k) as P. rewrite forallb_forall in P. specialize (P _ H1). unfold module_name in E. rewrite E in P. cbn [negb orb] in P.
  left. unfold module_named in P. apply existsb_exists in P. destruct P as (c & Hc & P). apply str_eqb_spec in P. exists c. split; assumption.
Qed.
