(** The classes of the code (Classes.v) do not get in their own way: a checker for [class_ok]. *)
From Coq Require Import String.
From Verif Require Import PyBase PyText Utf Brace Pipeline Spec_Misc ObjCode Spec_Obj ObjCodeMain Payload Spec_Payload MetaObj Spec_MetaObj MetaObjBase MetaObjGood UpdateDictProofs Classes.
Open Scope list_scope.
Open Scope N_scope.

Definition mem (x : list N) (l : list (list N)) : bool := existsb (str_eqb x) l.
Fixpoint nodupb (l : list (list N)) : bool := match l with [] => true | x :: r => negb (mem x r) && nodupb r end.
Definition scalarsb (l : list N) : bool := forallb scalarb l.
Fixpoint apartb (p q : list nat) : bool := match p, q with i :: p, j :: q => negb (Nat.eqb i j) || apartb p q | _, _ => false end.
Fixpoint natsb (l : list nat) : bool := match l with [] => true | x :: r => negb (existsb (Nat.eqb x) r) && natsb r end.

(** source files of a part when they do not depend on the object *)
Definition named (fname : list N) (p : part) : option (list (list N)) :=
  match p with
  | PHelp _ f => let f := match f with Some f => f | None => fname end in Some [dotted f s_html; dotted f s_bin]
  | PRaw _ d => Some [d]
  | PPackage => Some [dotted fname s_bin]
  | PInfo => Some [dotted fname x_c1brace]
  | PPicture | PTemplate _ | PTree => None
  | PKept _ | PForm1 | PStored _ => Some []
  | PImage _ e => Some [e]
  | PJson k => Some [dotted (dotted fname k) s_json]
  end.
Fixpoint named_all (fname : list N) (ps : list part) : option (list (list N)) :=
  match ps with [] => Some [] | p :: r => match named fname p, named_all fname r with Some a, Some b => Some (a ++ b) | _, _ => None end end.
Definition clear (fname : list N) (ext : list (list N * list N)) (n : list N) : bool :=
  negb (str_eqb n (dotted fname s_json)) && negb (str_eqb n (dotted fname s_idjson)) && forallb (fun m => negb (starts (dotted fname m ++ [46]) n)) (map fst ext).
Definition sources_ok (c : class) : bool :=
  match named_all (c_name c) (c_parts c ++ c_late c) with
  | Some l => nodupb l && forallb (clear (c_name c) (c_ext c)) l
  | None =>
    match c_parts c, c_late c, c_ext c with
    | [PPicture], [], [] | [PTree], [], [] => true
    | [PTemplate at_], [], [] => apartb (c_path c) at_
    | _, _, _ => false
    end
  end.
Definition check (c : class) : bool :=
  nodupb (numbers c) && nodupb (map fst (c_ext c)) && forallb (fun m => negb (str_eqb m s_idname) && scalarsb m) (map fst (c_ext c)) &&
  nodupb (flat_map part_keys (c_parts c ++ c_late c)) && forallb scalarsb (flat_map part_keys (c_parts c ++ c_late c)) &&
  sources_ok c &&
  nodupb (map (fun e => fst (fst e)) (c_ids c)) && negb (mem s_uuid (map (fun e => fst (fst e)) (c_ids c))) &&
  forallb (fun e : list N * list N * nat => scalarsb (fst (fst e)) && scalarsb (snd (fst e))) (c_ids c) && natsb (map (fun e => snd e) (c_ids c)) &&
  match c_format c with FAny => true | _ => apartb (c_path c) [0; 1; 0]%nat && match c_ids c with [] => true | _ => false end end.

Lemma mem_in x l : mem x l = false -> ~ In x l.
Proof. intros H Hi. unfold mem in H. assert (existsb (str_eqb x) l = true); [|congruence]. apply existsb_exists. exists x. split; [exact Hi|apply str_eqb_refl]. Qed.
Lemma nodupb_ok l : nodupb l = true -> NoDup l.
Proof. induction l as [|x l IH]; cbn [nodupb]; intros H; [constructor|]. apply andb_true_iff in H. destruct H as [H1 H2]. apply negb_true_iff in H1. constructor; [apply mem_in; exact H1|auto]. Qed.
Lemma natsb_ok l : natsb l = true -> NoDup l.
Proof.
  induction l as [|x l IH]; cbn [natsb]; intros H; [constructor|]. apply andb_true_iff in H. destruct H as [H1 H2]. apply negb_true_iff in H1. constructor; [|auto]. intros Hi.
  assert (existsb (Nat.eqb x) l = true); [|congruence]. apply existsb_exists. exists x. split; [exact Hi|apply Nat.eqb_refl].
Qed.
Lemma scalarsb_ok l : scalarsb l = true -> Forall scalar l.
Proof. apply scalars_by. Qed.
Lemma apartb_ok p : forall q, apartb p q = true -> apart p q.
Proof. induction p as [|i p IH]; intros [|j q]; cbn; try discriminate. intros H. apply orb_true_iff in H. destruct H as [H|H]; [left; apply negb_true_iff, Nat.eqb_neq in H; exact H|right; auto]. Qed.

Lemma named_owns fname name p l n : named fname p = Some l -> owns fname name p n -> In n l.
Proof. destruct p; cbn [named owns]; intros H; try discriminate; injection H as <-; cbn [In]; intuition congruence. Qed.
Lemma named_all_in fname ps : forall l p, named_all fname ps = Some l -> In p ps -> exists a, named fname p = Some a /\ forall n, In n a -> In n l.
Proof.
  induction ps as [|q ps IH]; intros l p H Hp; [destruct Hp|]. cbn [named_all] in H. destruct (named fname q) as [a|] eqn:Eq; [|discriminate]. destruct (named_all fname ps) as [b|] eqn:Eb; [|discriminate].
  injection H as <-. destruct Hp as [->|Hp]; [exists a; split; [exact Eq|intros; apply in_or_app; auto]|]. destruct (IH b p eq_refl Hp) as (a' & E & Hs). exists a'. split; [exact E|intros; apply in_or_app; auto].
Qed.
Lemma named_pairs fname name ps : forall l, named_all fname ps = Some l -> NoDup l -> ForallOrdPairs (fun p q => forall n, owns fname name p n -> owns fname name q n -> False) ps.
Proof.
  induction ps as [|q ps IH]; intros l H Hn; [constructor|]. cbn [named_all] in H. destruct (named fname q) as [a|] eqn:Eq; [|discriminate]. destruct (named_all fname ps) as [b|] eqn:Eb; [|discriminate].
  injection H as <-.
  assert (Hab : NoDup b /\ forall x, In x a -> In x b -> False).
  { clear -Hn. induction a as [|x a IH]; cbn [app] in Hn; [split; [exact Hn|intros ? []]|]. inversion Hn as [|? ? H1 H2]; subst. destruct (IH H2) as [A1 A2]. split; [exact A1|].
    intros y [<-|Hy] Hb; [apply H1; apply in_or_app; auto|eauto]. }
  destruct Hab as [Hb Hd]. constructor; [|eapply IH; [reflexivity|exact Hb]]. apply Forall_forall. intros p Hp n H1 H2. destruct (named_all_in _ _ _ _ Eb Hp) as (a' & E & Hs).
  apply (Hd n); [eapply named_owns; eassumption|apply Hs; eapply named_owns; eassumption].
Qed.
Lemma starts_app a b : starts a (a ++ b) = true.
Proof. induction a as [|x a IH]; cbn [starts app]; [reflexivity|]. rewrite N.eqb_refl. exact IH. Qed.
Lemma source_prefix fname m x : source_name fname m x = (dotted fname m ++ [46]) ++ x.
Proof. unfold source_name, dotted. rewrite <- !app_assoc. reflexivity. Qed.
Lemma dot_dotted a b : nodot (dotted a b) -> False.
Proof. unfold dotted, nodot. intros H. apply H. apply in_or_app. right. left. reflexivity. Qed.

Lemma check_ok c name : check c = true -> (In PTree (c_parts c ++ c_late c) -> nodot name) -> class_ok c name.
Proof.
  unfold check. rewrite !andb_true_iff. intros ((((((((((C1 & C2) & C3) & C4) & C5) & C6) & C7) & C8) & C9) & C10) & C11) Hname.
  assert (K : ForallOrdPairs (fun p q => forall n, owns (c_name c) name p n -> owns (c_name c) name q n -> False) (c_parts c ++ c_late c) /\
    (forall p, In p (c_parts c ++ c_late c) -> ~ owns (c_name c) name p (dotted (c_name c) s_json) /\ ~ owns (c_name c) name p (dotted (c_name c) s_idjson)) /\
    (forall p n, In p (c_parts c ++ c_late c) -> owns (c_name c) name p n -> ~ module_source c n) /\
    (forall at_, In (PTemplate at_) (c_parts c ++ c_late c) -> apart (c_path c) at_) /\ (forall at_, ~ In (PTemplate at_) (c_late c))).
  { unfold sources_ok in C6. destruct (named_all (c_name c) (c_parts c ++ c_late c)) as [l|] eqn:El.
    - apply andb_true_iff in C6. destruct C6 as [D1 D2]. apply nodupb_ok in D1. rewrite forallb_forall in D2.
      assert (Q : forall p n, In p (c_parts c ++ c_late c) -> owns (c_name c) name p n -> clear (c_name c) (c_ext c) n = true).
      { intros p n Hp Hn. apply D2. destruct (named_all_in _ _ _ _ El Hp) as (a & Ea & Hs). apply Hs. eapply named_owns; eassumption. }
      split; [eapply named_pairs; eassumption|]. split; [|split; [|split]].
      + intros p Hp. split; intros Hn; apply Q in Hn; try exact Hp; unfold clear in Hn; rewrite !andb_true_iff, !negb_true_iff in Hn; destruct Hn as [[H1 H2] _]; rewrite str_eqb_refl in *; congruence.
      + intros p n Hp Hn (m & x & Hm & ->). apply Q in Hn; [|exact Hp]. unfold clear in Hn. rewrite !andb_true_iff in Hn. destruct Hn as [_ Hn]. rewrite forallb_forall in Hn. specialize (Hn m Hm).
        rewrite source_prefix, starts_app in Hn. discriminate.
      + intros at_ Hp. destruct (named_all_in _ _ _ _ El Hp) as (a & Ea & _). discriminate.
      + intros at_ Hp. assert (Hp' : In (PTemplate at_) (c_parts c ++ c_late c)) by (apply in_or_app; auto). destruct (named_all_in _ _ _ _ El Hp') as (a & Ea & _). discriminate.
    - assert (Q : exists p, c_parts c = [p] /\ c_late c = [] /\ c_ext c = [] /\ (p = PPicture \/ p = PTree \/ exists at_, p = PTemplate at_ /\ apartb (c_path c) at_ = true)).
      { destruct (c_parts c) as [|p [|]]; try discriminate; destruct p; try discriminate; destruct (c_late c); try discriminate; destruct (c_ext c); try discriminate; eexists; repeat split; eauto. }
      destruct Q as (p & Eparts & Elate & Ee & Hp). rewrite Eparts, Elate in Hname |- *. cbn [app]. unfold module_source. rewrite Ee. split; [repeat constructor|]. split; [|split; [|split]].
      + intros q [<-|[]]. destruct Hp as [->|[->|(at_ & -> & _)]]; cbn [owns].
        * split; intros (x & X1 & X2 & E); apply dotted_inj in E; congruence.
        * assert (Hn : nodot name) by (apply Hname; left; reflexivity). split; intros E; rewrite <- E in Hn; eapply dot_dotted; exact Hn.
        * split; intros (x & X1 & X2 & E); apply dotted_inj in E; congruence.
      + intros q n _ _ (m & x & [] & _).
      + intros at_ [E|[]]. destruct Hp as [->|[->|(at2 & -> & Ha)]]; try discriminate. injection E as <-. apply apartb_ok. exact Ha.
      + intros at_ []. }
  destruct K as (K1 & K2 & K3 & K4 & K5). rewrite forallb_forall in C3, C5, C9.
  constructor; try assumption.
  - apply nodupb_ok; assumption.
  - apply nodupb_ok; assumption.
  - apply Forall_forall. intros m Hm. specialize (C3 m Hm). apply andb_true_iff in C3. destruct C3 as [D1 D2]. split; [|apply scalarsb_ok; exact D2]. intros ->. rewrite str_eqb_refl in D1. discriminate.
  - apply nodupb_ok; assumption.
  - apply Forall_forall. intros k Hk. apply scalarsb_ok. apply C5. exact Hk.
  - split; [apply nodupb_ok; assumption|]. apply mem_in. apply negb_true_iff. exact C8.
  - apply Forall_forall. intros e He. specialize (C9 e He). apply andb_true_iff in C9. destruct C9. split; apply scalarsb_ok; assumption.
  - apply natsb_ok. assumption.
  - destruct (c_format c); [left; reflexivity| | |]; right; apply andb_true_iff in C11; destruct C11 as [D1 D2]; (split; [apply apartb_ok; exact D1|destruct (c_ids c); [reflexivity|discriminate]]).
Qed.

Lemma all_classes_ok : forall c name, In c classes -> nodot name -> class_ok c name.
Proof.
  assert (H : forallb check classes = true) by (vm_compute; reflexivity). rewrite forallb_forall in H. intros c name Hc Hn. apply check_ok; [apply H; exact Hc|intros _; exact Hn].
Qed.
