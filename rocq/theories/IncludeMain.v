(** The list of included objects and the header of a container object. *)
From Coq Require Import String Permutation.
From Verif Require Import PyBase PyInt Brace Container Utf JsonTextProofs Header Payload Spec_Misc MetaObj MetaObjBase MetaObjGood Spec_MetaObj EncodeLoop Classes ClassesProofs Types Include Spec_Include IncludeProofs.

Open Scope list_scope.
Open Scope N_scope.

Lemma type_names_scal v t : type_of v = Some t -> Forall scalar t.
Proof.
  destruct v as [|v|]; try discriminate. intros H. apply type_named_in in H. assert (K : forallb (fun e => forallb scalarb (fst e)) type_table = true) by (vm_compute; reflexivity).
  rewrite forallb_forall in K. apply scalars_by. apply (K _ H).
Qed.
Section P.
Variable Y : Type.
Variable inner : list N -> option (val -> res (list N * Y)).
(** the identifier of an inner object is a text of the object *)
Definition inner_scal : Prop := forall t f o u y, inner t = Some f -> f o = Ok (u, y) -> scal o -> Forall scalar u.
Hypothesis Hin : inner_scal.
Lemma dec_objs_scal auto t objs : forall objs' ks, Forall scal objs -> dec_objs auto inner t objs = Ok (objs', ks) -> Forall scal objs'.
Proof.
  induction objs as [|o objs IH]; intros objs' ks Hs H; [injection H as <- <-; constructor|]. apply Forall_cons_iff in Hs. destruct Hs as [Ho Hs]. cbn [dec_objs] in H.
  destruct o as [|s|l].
  - destruct (dec_objs auto inner t objs) as [[os ks2]|]; [|discriminate]. injection H as <- <-. constructor; [exact Ho|]. eapply IH; [exact Hs|reflexivity].
  - destruct (dec_objs auto inner t objs) as [[os ks2]|]; [|discriminate]. injection H as <- <-. constructor; [exact Ho|]. eapply IH; [exact Hs|reflexivity].
  - destruct (inner t) as [f|] eqn:Ei.
    + destruct (f (VList l)) as [[u y]|] eqn:Ef; [|discriminate]. cbn [bind] in H. destruct (dec_objs auto inner t objs) as [[os ks2]|]; [|discriminate]. injection H as <- <-.
      constructor; [|eapply IH; [exact Hs|reflexivity]]. destruct auto; [exact Ho|]. apply (proj1 (scal_str _)). eapply Hin; eassumption.
    + destruct (dec_objs auto inner t objs) as [[os ks2]|]; [|discriminate]. injection H as <- <-. constructor; [exact Ho|]. eapply IH; [exact Hs|reflexivity].
Qed.
Lemma scal_forall l : scal (VList l) -> Forall scal l.
Proof. intros H. apply Forall_forall. intros x Hx. eapply scal_list_in; eassumption. Qed.
Lemma dec_slot_scal auto s s' k : scal s -> dec_slot auto inner s = Ok (s', k) -> scal s'.
Proof.
  intros Hs H. destruct s as [| |[|ty [|[|c|] rest]]]; try discriminate. unfold dec_slot in H. destruct (int_of_str c) as [n|]; [|discriminate]. destruct (type_of ty) as [t|] eqn:Et.
  - cbv zeta in H. destruct (length rest <? Z.to_nat n)%nat; [discriminate|]. destruct (dec_objs auto inner t (firstn (Z.to_nat n) rest)) as [[os ks]|] eqn:E; [|discriminate]. cbn [bind] in H.
    apply scal_forall in Hs. pose proof (Forall_inv Hs) as H1. pose proof (Forall_inv_tail Hs) as Hs2. pose proof (Forall_inv Hs2) as H2. pose proof (Forall_inv_tail Hs2) as H3.
    assert (Ho : scal (VList (ty :: VStr c :: os ++ skipn (Z.to_nat n) rest))).
    { apply MetaObjBase.scal_list. constructor; [exact H1|]. constructor; [exact H2|]. rewrite <- (firstn_skipn (Z.to_nat n) rest) in H3. apply Forall_app in H3. apply Forall_app. split; [|apply H3].
      destruct H3 as [H3a H3b]. eapply dec_objs_scal; [exact H3a|exact E]. }
    destruct ks as [|k0 ks]; [injection H as <- <-; exact Ho|]. injection H as <- <-. destruct auto; [|exact Ho]. apply (proj1 (scal_str _)). eapply type_names_scal. exact Et.
  - destruct (n =? 0)%Z; [|destruct rest; [discriminate|]]; injection H as <- <-; exact Hs.
Qed.
Lemma dec_slots_scal auto ss : forall ss' ks, Forall scal ss -> dec_slots auto inner ss = Ok (ss', ks) -> Forall scal ss'.
Proof.
  induction ss as [|s ss IH]; intros ss' ks Hs H; [injection H as <- <-; constructor|]. apply Forall_cons_iff in Hs. destruct Hs as [H1 H2]. cbn [dec_slots] in H.
  destruct (dec_slot auto inner s) as [[s2 k]|] eqn:E; [|discriminate]. cbn [bind] in H. destruct (dec_slots auto inner ss) as [[r ks2]|] eqn:E2; [|discriminate]. injection H as <- <-.
  constructor; [eapply dec_slot_scal; eassumption|eapply IH; [exact H2|reflexivity]].
Qed.
End P.

(** containers keep their own header in the second element of the list *)
Lemma container_path (c : class) : In c container_classes -> exists p, c_path c = 0%nat :: 1%nat :: p.
Proof.
  assert (H : forallb (fun c => match c_path c with 0%nat :: 1%nat :: _ => true | _ => false end) container_classes = true) by reflexivity. rewrite forallb_forall in H. intros Hc. specialize (H c Hc).
  destruct (c_path c) as [|[|?] [|[|[|?]] p]]; try discriminate. exists p. reflexivity.
Qed.
Lemma container_ids c : In c container_classes -> c_ids c = [] \/ c = data_processor.
Proof.
  assert (H : forallb (fun c => match c_ids c with [] => true | _ => str_eqb (c_name c) (c_name data_processor) end) container_classes = true) by reflexivity. 
  intros Hc. destruct (c_ids c) as [|i l] eqn:E; [left; reflexivity|]. right. vm_compute in Hc. repeat (destruct Hc as [<-|Hc]; [first [discriminate E|reflexivity]|]). destruct Hc.
Qed.
Lemma vput_list p h b b' vs : vput p h b = Ok b' -> b = VList vs -> p <> [] -> exists vs', b' = VList vs' /\ length vs' = length vs.
Proof.
  destruct p as [|i p]; [congruence|]. intros H -> _. cbn [vput] in H. destruct (vget (VList vs) i) as [y|] eqn:E; [|discriminate]. cbn [bind] in H. destruct (vput p h y) as [y'|]; [|discriminate]. cbn [bind] in H.
  unfold Payload.vset in H. destruct (nth_error vs i); [|discriminate]. injection H as <-. eexists. split; [reflexivity|]. apply set_nth_len.
Qed.
Lemma data_processor_path : In data_processor container_classes /\ c_path data_processor = [0; 1; 3; 1]%nat.
Proof. split; [vm_compute; tauto|reflexivity]. Qed.

(** what a data processor needs for its identifiers *)
Definition has_ids (c : class) (version b : val) : Prop := ids_of c version = [] \/ exists vs, b = VList vs /\ (8 < length vs)%nat.
Lemma container_carried (Y : Type) (inner : list N -> option (val -> res (list N * Y))) lower auto idx c version a b cnt gs more rest ks :
  inner_scal Y inner -> In c container_classes -> list_ok cnt gs -> regrouped_all inner lower auto idx gs ks gs -> NoDup (map fst ks) -> has_ids c version b ->
  carried c version (list_val a b cnt gs more :: rest) (container_decode auto inner) (container_fill lower idx) ks.
Proof.
  intros Hi Hc Hl HR Hn Hids h t Hput Hsc. destruct (container_path c Hc) as [p Hp]. rewrite Hp in Hput. cbn [vput vget nth_error bind list_val] in Hput.
  destruct (vput p h b) as [b'|] eqn:Eb; [|discriminate]. cbn [bind Payload.vset nth_error set_nth] in Hput.
  assert (Et : t = VList (list_val a b' cnt gs more :: rest)) by (unfold list_val; cbn in Hput; injection Hput as <-; reflexivity). subst t. clear Hput.
  destruct (@include_core Y inner lower auto idx a b' cnt gs more ks gs Hl HR Hn) as (ss & D & F & G & Dss).
  exists (VList (VList (a :: b' :: VStr cnt :: ss ++ more) :: rest)). split; [|split; [|split; [|split; [|reflexivity]]]].
  - unfold container_decode. cbn [vget nth_error bind]. rewrite D. reflexivity.
  - unfold container_fill. cbn [vget nth_error bind]. rewrite F. cbn [bind Payload.vset nth_error set_nth]. destruct idx as [|e idx]; [|reflexivity].
    assert (ks = []) as ->.
    { clear - HR. induction HR as [|g k g' gs ks gs' R _ IH]; [reflexivity|]. rewrite IH, app_nil_r. destruct R as [|t Hk|t ks0 es Hk Ha Hne Ht (E1 & _) Hp|t ks0 es es' Hk Ha Hne Ht (E1 & _) Hp]; try reflexivity; exfalso; apply Permutation_nil in Hp; subst es; inversion E1; congruence. }
    destruct (G eq_refl) as [-> _]. reflexivity.
  - apply scal_forall in Hsc. apply MetaObjBase.scal_list. pose proof (Forall_inv Hsc) as H1. pose proof (Forall_inv_tail Hsc) as H2. constructor; [|exact H2]. unfold list_val in H1. apply scal_forall in H1.
    apply MetaObjBase.scal_list. apply Forall_cons_iff in H1. destruct H1 as [A1 H1]. apply Forall_cons_iff in H1. destruct H1 as [A2 H1]. apply Forall_cons_iff in H1. destruct H1 as [A3 H1d]. apply Forall_app in H1d. destruct H1d as [S1 S2].
    constructor; [exact A1|]. constructor; [exact A2|]. constructor; [exact A3|]. apply Forall_app. split; [|exact S2]. eapply dec_slots_scal; [exact Hi|exact S1|exact Dss].
  - destruct Hids as [E|(vs & -> & Hlen)]; [left; exact E|]. destruct (container_ids c Hc) as [E|E].
    + left. unfold ids_of. rewrite E. destruct version as [|s|]; try reflexivity. destruct (starts s_803 s); reflexivity.
    + right. subst c. assert (p = [3; 1]%nat) as -> by (destruct data_processor_path as [_ E]; congruence).
      destruct (vput_list _ _ _ _ _ Eb eq_refl ltac:(discriminate)) as (vs' & -> & Hl').
      exists a, vs', (VStr cnt :: ss ++ more), rest. split; [reflexivity|]. intros e He. rewrite Hl'.
      assert (K : forallb (fun e : list N * list N * nat => (snd e <? 9)%nat) (c_ids data_processor) = true) by (vm_compute; reflexivity). rewrite forallb_forall in K.
      assert (In e (c_ids data_processor)) as He2. { unfold ids_of in He. destruct version as [|s|]; [destruct He| |destruct He]. destruct (starts s_803 s); [exact He|destruct He]. }
      specialize (K e He2). apply Nat.ltb_lt in K. lia.
Qed.
