(** A checker for examples: trees with short leaves, bare or in quotes, are canonical (Spec_Brace.v). *)
From Coq Require Import String.
From Verif Require Import PyBase PyText PyB64 Utf Brace Spec_Brace BraceMore Pipeline Spec_Stage Payload Spec_Payload.
From Verif Require Import MetaObjGood.
Open Scope list_scope.
Open Scope N_scope.

Definition plainb (s : list N) : bool := forallb (fun c => negb (existsb (N.eqb c) [COMMA; CLOSE; QUOTE; LF; CR])) s.
Definition quotedb (s : list N) : bool :=
  match s with q :: r => (q =? QUOTE) && (last r 0 =? QUOTE) && negb (match r with [] => true | _ => false end) && forallb (fun c => negb (c =? QUOTE) && negb (c =? CR)) (removelast r) | [] => false end.
Definition leafb (s : list N) : bool :=
  negb (match s with [] => true | _ => false end) && (plainb s || quotedb s) && negb (starts p_base64 s) && negb (starts pp_base64 s) && (length s <=? 64)%nat.
Definition headb (l : list val) : bool := match l with [] => false | VStr s :: _ => negb (starts hash_base64 s) | _ => true end.
Definition elems_by (f : val -> bool) : bool -> list val -> bool := fix go (b : bool) (l : list val) : bool :=
  match l with [] => true | x :: r => match x with VStr [] => negb b && go false r | VStr s => leafb s && go false r | VNone => b && go false r | VList _ => f x && go true r end end.
Fixpoint objb (v : val) : bool := match v with VList l => headb l && elems_by objb false l | _ => false end.
Definition canonb (d : list val) : bool :=
  match d with [] => false | _ => forallb objb d end && match d with VList (VStr x :: y :: _) :: _ => negb (str_eqb x lit_1) || negb (has_b64 y) | _ => true end.

Lemma plainb_ok s : plainb s = true -> plain s.
Proof.
  intros H. apply Forall_forall. intros c Hc Hin. unfold plainb in H. rewrite forallb_forall in H. specialize (H c Hc). apply negb_true_iff in H.
  assert (existsb (N.eqb c) [COMMA; CLOSE; QUOTE; LF; CR] = true); [|congruence]. apply existsb_exists. exists c. split; [exact Hin|apply N.eqb_refl].
Qed.
Lemma quotedb_ok s : quotedb s = true -> quoted s.
Proof.
  destruct s as [|q r]; [discriminate|]. cbn [quotedb]. rewrite !andb_true_iff. intros (((H1 & H2) & H3) & H4). apply N.eqb_eq in H1, H2. subst q. exists (removelast r). split; [|split].
  - f_equal. rewrite <- H2. apply app_removelast_last. intros ->. discriminate.
  - clear H2 H3. induction (removelast r) as [|c t IH]; [constructor|]. cbn [forallb] in H4. rewrite !andb_true_iff in H4. destruct H4 as ((A & B) & C). constructor; [|auto]. intros ->. discriminate.
  - rewrite forallb_forall in H4. intros Hin. specialize (H4 _ Hin). discriminate.
Qed.
Lemma leafb_ok s : leafb s = true -> leaf_ok s.
Proof.
  unfold leafb. rewrite !andb_true_iff. intros ((((H1 & H2) & H3) & H4) & H5). apply negb_true_iff in H3, H4. apply Nat.leb_le in H5. split; [intros ->; discriminate|]. split; [|auto].
  apply orb_true_iff in H2. destruct H2; [left; apply plainb_ok; assumption|right; apply quotedb_ok; assumption].
Qed.
Lemma objb_ok (v : val) : objb v = true -> exists l, v = VList l /\ obj_ok l.
Proof.
  induction v as [| |l IHl] using val_ind2; try discriminate. cbn [objb]. intros H. apply andb_true_iff in H. destruct H as [H1 H2]. exists l. split; [reflexivity|].
  apply o_list; [intros ->; discriminate|destruct l as [|[|s|] l]; cbn in *; auto; apply negb_true_iff in H1; exact H1|].
  clear H1. revert H2. generalize false. induction IHl as [|x l Hx _ IH]; intros b H2; [constructor|]. destruct x as [|[|c s]|l2]; apply andb_true_iff in H2; destruct H2 as [A B].
  - destruct b; [|discriminate]. apply e_none. apply IH. exact B.
  - destruct b; [discriminate|]. apply e_empty. apply IH. exact B.
  - apply e_leaf; [apply leafb_ok; exact A|apply IH; exact B].
  - destruct (Hx A) as (l3 & E & Ho). apply e_obj; [congruence|apply IH; exact B].
Qed.
Lemma canonb_ok d : canonb d = true -> canonical d.
Proof.
  unfold canonb. intros H. apply andb_true_iff in H. destruct H as [H1 H2]. split; [intros ->; discriminate|]. split.
  - apply Forall_forall. intros v Hv. apply objb_ok. destruct d; [destruct Hv|]. rewrite forallb_forall in H1. apply H1. exact Hv.
  - destruct d as [|[| |[|[|x|] [|y l]]] d]; cbn; auto. intros ->. rewrite str_eqb_refl in H2. apply negb_true_iff in H2. exact H2.
Qed.
Lemma brace_bytes_by os data bs : canonb data = true -> forallb scalarb (concat (flat_map leaves data)) = true -> brace_file_write os data [] = (Ok tt, bs) -> brace_bytes os data bs.
Proof. intros H1 H2 H3. split; [apply canonb_ok; exact H1|]. split; [apply scalars_by; exact H2|exact H3]. Qed.
Ltac brace_solve := apply brace_bytes_by; vm_compute; reflexivity.
