(** The file [versions] of a root can be written, and stands in the file as it should (Root.v). *)
From Coq Require Import String Permutation.
From Verif Require Import PyBase PyInt PyText Utf Cp1251 Brace Spec_Brace BraceMore BraceFile JsonText JsonTextProofs JsonObj Header Pipeline Spec_Stage ObjCode Spec_Obj Payload Spec_Payload PayloadProofs MetaObj Spec_MetaObj MetaObjBase MetaObjGood MetaObjMain UpdateDictProofs
  EncodeLoop Types Include Tree Spec_Misc Classes MetaObj Real Root Spec_Root RootTree.
Set Implicit Arguments.
Open Scope list_scope.
Open Scope N_scope.

Lemma quoted_leaf n : fits n -> leaf_ok (34 :: n ++ [34]).
Proof.
  intros (H1 & H2 & H3 & H4). split; [discriminate|]. split.
  - right. exists n. split; [reflexivity|]. split; [|exact H3]. clear - H2. induction n as [|c n IH]; [constructor|]. constructor; [intros ->; apply H2; left; reflexivity|]. apply IH. intros Hi. apply H2. right. exact Hi.
  - split; [reflexivity|]. split; [reflexivity|]. left. cbn [length]. rewrite app_length. cbn [length]. lia.
Qed.
Lemma few_len n : (Z.of_nat n < 2 ^ 31)%Z -> (length (str_of_int (Z.of_nat n)) <= 64)%nat.
Proof.
  intros H. unfold str_of_int. replace (Z.of_nat n <? 0)%Z with false by lia. pose proof (@digits_of_len 10 (Z.of_nat n) 10 ltac:(lia) ltac:(lia)) as D.
  assert (Z.of_nat n < 10 ^ Z.of_nat 10)%Z by (change (10 ^ Z.of_nat 10)%Z with 10000000000%Z; change (2 ^ 31)%Z with 2147483648%Z in H; lia). specialize (D ltac:(assumption) ltac:(lia)). lia.
Qed.
Lemma plain_leaf s : s <> [] -> (length s <= 64)%nat -> Forall (fun c => c = 45 \/ 48 <= c <= 57 \/ 97 <= c <= 102) s -> leaf_ok s.
Proof.
  intros H1 H2 H3. split; [exact H1|]. split.
  - left. eapply Forall_impl; [|exact H3]. cbv beta. intros c Hc Hi. cbn [In] in Hi. unfold COMMA, CLOSE, QUOTE, LF, CR in Hi. lia.
  - destruct s as [|c s]; [congruence|]. inversion H3 as [|? ? Hc _]; subst. assert (Hn : c <> 35) by lia. apply N.eqb_neq in Hn. rewrite N.eqb_sym in Hn.
    split; [|split; [|left; exact H2]]; [change p_base64 with (35%N :: tl p_base64)|change pp_base64 with (35%N :: tl pp_base64)]; cbn [starts]; rewrite Hn; reflexivity.
Qed.
Lemma ident_leaf s : identifier s -> leaf_ok s.
Proof. intros [H1 H2]. apply plain_leaf; [intros ->; discriminate|lia|exact H2]. Qed.
Lemma count_leaf n : (Z.of_nat n < 2 ^ 31)%Z -> leaf_ok (str_of_int (Z.of_nat n)).
Proof.
  intros H. apply plain_leaf; [apply str_of_int_nonempty|apply few_len, H|]. apply Forall_forall. intros c Hc. apply str_of_int_chars in Hc. lia.
Qed.
Lemma ident_scal s : identifier s -> Forall scalar s.
Proof. intros [_ H]. eapply Forall_impl; [|exact H]. cbv beta. intros c Hc. unfold scalar, is_surrogate. split; lia. Qed.

Section V.
Variable os : platform.
Variable fresh : nat -> list N.
Hypothesis fresh_ok : forall n, identifier (fresh n).
Fixpoint ids_from (n : nat) (k : nat) : list (list N) := match k with O => [] | S k => fresh n :: ids_from (S n) k end.
Lemma ids_from_ok k : forall n, length (ids_from n k) = k /\ Forall identifier (ids_from n k).
Proof. induction k as [|k IH]; intros n; [split; [reflexivity|constructor]|]. destruct (IH (S n)) as [A B]. cbn [ids_from length]. split; [congruence|constructor; [apply fresh_ok|exact B]]. Qed.
Definition lines (l : list (list N * list N)) : list val := concat (map (fun e : list N * list N => [Spec_Misc.quoted (fst e); VStr (snd e)]) l).
Lemma version_lines_ids files : forall n, version_lines fresh n files = lines (combine files (ids_from n (length files))).
Proof. induction files as [|f files IH]; intros n; [reflexivity|]. cbn [version_lines length ids_from combine]. unfold lines. cbn [map concat app fst snd]. rewrite IH. reflexivity. Qed.
Lemma lines_ok l : Forall (fun e => fits (fst e) /\ identifier (snd e)) l -> elems_ok false (lines l) /\ Forall scal (lines l).
Proof.
  induction 1 as [|[f i] l [Hf Hi] Hr [IH1 IH2]]; [split; [constructor|constructor]|]. unfold lines. cbn [map concat app fst snd]. cbn [fst snd] in *. split.
  - unfold Spec_Misc.quoted. apply e_leaf; [apply quoted_leaf, Hf|]. apply e_leaf; [apply ident_leaf, Hi|exact IH1].
  - constructor; [apply quoted_scal; apply Hf|]. constructor; [apply (proj1 (scal_str _)); apply ident_scal, Hi|exact IH2].
Qed.
Lemma versions_written files : Forall fits files -> (Z.of_nat (S (length files)) < 2 ^ 31)%Z ->
  exists data bs, encode_versions fresh files = VList data /\ versions_of files data /\ brace_bytes os data bs.
Proof.
  intros Hf Hl. unfold encode_versions. replace (length files + 1)%nat with (S (length files)) by lia. rewrite version_lines_ids.
  set (ids := fresh 0 :: ids_from 1 (length files)). set (data := [VList (VStr s_one :: VStr (str_of_int (Z.of_nat (S (length files)))) :: lines (combine ([] :: files) ids))]).
  destruct (ids_from_ok (length files) 1) as [I1 I2].
  assert (Hids : length ids = S (length files) /\ Forall identifier ids) by (unfold ids; cbn [length]; split; [congruence|constructor; [apply fresh_ok|exact I2]]).
  destruct Hids as [L1 L2].
  destruct (@lines_ok (combine ([] :: files) ids)) as [E1 E2].
  { assert (F0 : Forall fits ([] :: files)) by (constructor; [split; [cbn; lia|split; [intros []|split; [intros []|constructor]]]|exact Hf]). clear - F0 L2. revert F0 L2. generalize ids. generalize ([] :: files). intros l. induction l as [|f l IH]; intros is F0 L2; [constructor|]. destruct is as [|i is]; [constructor|]. cbn [combine].
    apply Forall_cons_iff in F0, L2. destruct F0 as [A1 A2], L2 as [B1 B2]. constructor; [split; assumption|]. apply IH; assumption. }
  assert (C : canonical data).
  { split; [discriminate|]. split; [|intros _; reflexivity]. constructor; [|constructor]. eexists. split; [reflexivity|]. apply o_list; [discriminate|reflexivity|].
    apply e_leaf; [apply plain_leaf; [discriminate|cbn; lia|constructor; [lia|constructor]]|]. apply e_leaf; [apply count_leaf, Hl|exact E1]. }
  assert (Sd : Forall scalar (concat (flat_map leaves data))).
  { change (scal (VList data)). unfold data. apply scal_list. constructor; [|constructor]. apply scal_list. constructor; [apply (proj1 (scal_str _)); scalars|]. constructor; [|exact E2].
    apply (proj1 (scal_str _)). apply Forall_forall. intros c Hc. apply str_of_int_chars in Hc. unfold scalar, is_surrogate. split; lia. }
  destruct (file_roundtrip os cp1251_decode [] C Sd) as (bs & W & _). exists data, bs. split; [reflexivity|]. split; [|split; [exact C|split; [exact Sd|exact W]]].
  exists ids. split; [exact L1|]. split; [exact L2|reflexivity].
Qed.
End V.
