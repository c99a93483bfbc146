(** Which root it is, at extraction and at build (Root.v). *)
From Coq Require Import String.
From Verif Require Import PyBase PyInt PyText Utf Cp1251 Codecs Brace Spec_Brace BraceMore JsonText JsonTextProofs JsonObj Header HeaderProofs Spec_Misc Pipeline Spec_Stage ObjCode Spec_Obj ObjCodeMain Payload
  Spec_Payload PayloadProofs UpdateDictProofs MetaObj Spec_MetaObj MetaObjBase MetaObjPart MetaObjGood MetaObjList MetaObjMain ClassesProofs EncodeLoop Types Include Spec_Include IncludeMain Tree Real Spec_Real Classes MetaObj Root Spec_Root RootCore RootTree RootSteps.
Open Scope list_scope.
Open Scope N_scope.

Lemma version_scal ver version : version_file ver version -> scal (VList ver) -> Forall scalar version.
Proof.
  intros H Sv. destruct H as [|s n x v w t r H1 H2 H3|]; [scalars| |scalars]. rewrite !scal_cons in Sv. destruct Sv as (((_ & _ & (A & _) & _) & _) & _). apply scal_str in A. apply Forall_forall. intros c Hc. rewrite Forall_forall in A. apply A.
  rewrite <- (firstn_skipn 3 v). apply in_or_app. left. exact Hc.
Qed.
Lemma handler_new ver version header info t k ty : version_file ver version -> vat [0; 3; 0]%nat header = Ok ty -> type_of ty = Some t -> kind_of_type t = Some k ->
  handler true (VList ver) header info = Ok (k, version).
Proof.
  intros H H1 H2 H3. unfold handler. destruct H as [s n x t0 r A B|s n x v w t0 r A B C|s n x v w t0 r A B C]; cbn [vat vget nth_error bind vstr vlen]; rewrite A; cbn [bind]; replace (216 <=? n)%Z with true by lia; cbn [bind length Nat.eqb].
  - cbn [vat] in H1. rewrite H1. cbn [bind]. rewrite H2, H3. reflexivity.
  - cbn [vat] in H1. rewrite H1. cbn [bind]. rewrite H2. cbn [bind vstr]. replace (length (firstn 3 v) =? 3)%nat with true by (rewrite firstn_length; symmetry; apply Nat.eqb_eq; lia). cbn [bind]. rewrite H3. reflexivity.
  - cbn [vat] in H1. rewrite H1. cbn [bind]. rewrite H2. cbn [bind vstr]. destruct C as [-> | ->]; cbn [firstn length Nat.eqb]; cbn [str_eqb N.eqb orb bind]; rewrite H3; reflexivity.
Qed.
Lemma handler_old ver header info : old_version_file ver -> handler true (VList ver) header info = Ok (RProc, s_801).
Proof. intros (w & t & r & ->). unfold handler. cbn [vat vget nth_error bind vstr]. change (int_of_str s_106) with (Ok 106%Z). reflexivity. Qed.
Lemma handler_info s n x version w rest : int_of_str s = Ok n -> (216 <= n)%Z -> starts s_803 version = true ->
  forall v h, handler false v h (VList (VList [VStr [48]; VList [VStr s; x; VList (VStr version :: w)]] :: rest)) = Ok (RExt, version).
Proof.
  intros A B C v h. unfold handler, handler_configinfo. cbn [vtruthy vat vget nth_error bind vstr vlen length Nat.eqb]. rewrite A. cbn [bind]. replace (216 <=? n)%Z with true by lia. rewrite C. reflexivity.
Qed.
Lemma old_formats_eq version : existsb (str_eqb version) old_formats = old_format version.
Proof. unfold old_format, old_formats. cbn [existsb]. rewrite orb_false_r. apply orb_comm. Qed.
Lemma same_version : check_version v8_version v8_version = Ok tt. Proof. vm_compute. reflexivity. Qed.
Lemma kind_config : kind_of_type t_config = Some RConfig. Proof. reflexivity. Qed.
Lemma kind_proc t : t = t_proc \/ t = t_report -> kind_of_type t = Some RProc. Proof. intros [-> | ->]; reflexivity. Qed.
Lemma read_in os src n data : in_file os src n data -> brace_read src n = Ok (VList data) /\ vtruthy (VList data) = true /\ scal (VList data).
Proof. intros (bs & H1 & H2). split; [eapply brace_read_bytes; eassumption|]. split; [apply (bytes_nonnil _ _ _ H2)|eapply brace_scal, H2]. Qed.
(** the only root file among the sources *)
Lemma found_root k name own srcs : root_sources k name own srcs -> (exists bs, dget (dotted (c_name (root_class k)) x_json) srcs = Some (TFile bs)) -> root_file srcs = Some (c_name (root_class k)).
Proof.
  intros [_ H] (bs & E). unfold root_file. assert (Hin : In (c_name (root_class k)) root_files) by (destruct k; cbn; tauto). revert H Hin. generalize root_files. intros l H Hin.
  induction l as [|n l IH]; [destruct Hin|]. cbn [find]. destruct (list_eq_dec N.eq_dec n (c_name (root_class k))) as [->|Hne].
  - rewrite E. reflexivity.
  - rewrite H by (auto; left; reflexivity). apply IH; [intros m Hm; apply H; right; exact Hm|]. destruct Hin; [congruence|assumption].
Qed.
