(** From the files of a build to the bytes and back: lemmas for Props_Whole.v. *)
From Coq Require Import String Permutation.
From Verif Require Import PyBase PyInt Utf PyFile PyText PyB64 Codecs Brace Spec_Brace BraceProofs BraceFile BraceMore Container Spec_Container ContainerProofs Pipeline Spec_Pipeline PipelineProofs PipelineMore PipelineItems Spec_Obj ObjCode Spec_Payload Real Root Spec_Root RootExt Whole Props_Pipeline Spec_Whole WholeProofs.
Open Scope list_scope.
Open Scope Z_scope.

Lemma brace_not_container os data bs : brace_bytes os data bs -> ~ looks_like_container bs.
Proof.
  intros (_ & _ & H) [t E]. unfold brace_file_write in H. destruct (encode_root_object data) as [raw|]; [|discriminate]. unfold utf8sig_encode in H.
  destruct (utf8_encode (write_nl os raw)) as [r|]; cbn [bind] in H; [|discriminate]. apply pair_equal_spec in H. destruct H as [_ H]. rewrite <- H in E. discriminate.
Qed.
Lemma all_some (files : list written) : Forall (fun e => exists t, snd e = Some t) files -> exists fo : folder, files = map (fun e => (fst e, Some (snd e))) fo.
Proof.
  induction 1 as [|[n e] files [t E] _ [fo IH]]; [exists []; reflexivity|]. cbn [snd] in E. subst e. exists ((n, t) :: fo). cbn [map fst snd]. rewrite IH. reflexivity.
Qed.
Lemma single_choose order (src : folder) : listing_order order -> choose order [src] = Ok (src, None).
Proof.
  intros H. unfold choose, numbered. cbn [length seq map combine]. change (Nat.eqb 1 1) with true. change (Nat.eqb 1 2) with false. cbn [orb negb]. cbv iota.
  pose proof (H [(str_of_int (Z.of_nat 0), src)]) as P. apply Permutation_length_1_inv in P. rewrite P. reflexivity.
Qed.
Lemma temp_not_versions (n : list N) : n ++ ext_temp <> f_versions.
Proof. intros A. assert (Z := f_equal (@rev _) A). rewrite rev_app_distr in Z. cbn in Z. discriminate. Qed.
Lemma temp_not_configinfo (n : list N) : n ++ ext_temp <> configinfo.
Proof. intros A. assert (Z := f_equal (@rev _) A). rewrite rev_app_distr in Z. cbn in Z. discriminate. Qed.
Lemma versions_name : valid_name f_versions.
Proof.
  split; [|split].
  - unfold f_versions. repeat (constructor; [apply small_scalar; reflexivity|]). constructor.
  - intros H. repeat (destruct H as [H|H]; [discriminate|]). destruct H.
  - repeat split; discriminate.
Qed.

Section M.
Variable deflate : list N -> list N.
Variable digest : list N -> list N.
Variable os : platform.
Variable inf : inflater.
Hypothesis Hinf : forall d, restores_promptly inf (deflate d) d.

(** the files of a build from [src]: the entry of [special] is new, the others are as in [src] *)
Definition rebuilt (src : folder) (special : list N) (rest : list (list N)) (files : list written) : Prop :=
  Permutation (map fst files) (special :: rest) /\ NoDup (map fst files) /\ (forall n e, In (n, e) files -> n <> special -> same_entry (dget n src) e).
Lemma rebuilt_folder src special rest files bs : rebuilt src special rest files -> packable_names src rest -> In (special, Some (TFile bs)) files ->
  exists fo, files = map (fun e => (fst e, Some (snd e))) fo /\ NoDup (map fst fo) /\ Permutation (special :: rest) (map fst fo) /\ ~ In special rest /\ In (special, TFile bs) fo /\
    forall n t, In (n, t) fo -> (n = special /\ t = TFile bs) \/ (In n rest /\ n <> special /\ exists t0, dget n src = Some t0 /\ packable t0 /\ same_entry (Some t0) (Some t)).
Proof.
  intros (P & Hnd & Hs) Hp Hsp.
  assert (Hns : ~ In special rest) by (apply (Permutation_NoDup P) in Hnd; inversion Hnd; assumption).
  destruct (all_some files) as [fo ->].
  { apply Forall_forall. intros [n e] Hin. cbn [snd]. destruct (str_eqb n special) eqn:E.
    - apply str_eqb_spec in E. subst n. exists (TFile bs). apply dget_in' in Hin; [|exact Hnd]. apply dget_in' in Hsp; [|exact Hnd]. congruence.
    - apply str_eqb_neq in E. assert (In n rest) as Hr. { assert (Q : In n (special :: rest)) by (apply (Permutation_in _ P), in_map_iff; exists (n, e); auto). destruct Q as [Q|Q]; [congruence|exact Q]. }
      destruct (Hp n Hr) as (_ & (t & Et & _) & _). pose proof (Hs n e Hin E) as Q. rewrite Et in Q. destruct e as [t'|]; [exists t'; reflexivity|]. destruct t; contradiction. }
  assert (Em : map fst (map (fun e : list N * tree => (fst e, Some (snd e))) fo) = map fst fo) by (rewrite map_map; reflexivity).
  rewrite Em in P, Hnd. exists fo. split; [reflexivity|]. split; [exact Hnd|]. split; [apply Permutation_sym, P|]. split; [exact Hns|].
  assert (Hin : In (special, TFile bs) fo).
  { apply in_map_iff in Hsp. destruct Hsp as ([m t] & Q & Hin). cbn [fst snd] in Q. apply pair_equal_spec in Q. destruct Q as [-> Q]. assert (t = TFile bs) by congruence. subst t. exact Hin. }
  split; [exact Hin|]. intros n t Ht. destruct (str_eqb n special) eqn:E.
  - apply str_eqb_spec in E. subst n. left. split; [reflexivity|]. apply dget_in' in Ht; [|exact Hnd]. apply dget_in' in Hin; [|exact Hnd]. congruence.
  - apply str_eqb_neq in E. right. assert (In n rest) as Hr. { assert (Q : In n (special :: rest)) by (apply (Permutation_in _ P), in_map_iff; exists (n, t); auto). destruct Q as [Q|Q]; [congruence|exact Q]. }
    split; [exact Hr|]. split; [exact E|]. destruct (Hp n Hr) as (_ & (t0 & Et & Hpk) & _). exists t0. split; [exact Et|]. split; [exact Hpk|].
    rewrite <- Et. apply Hs; [|exact E]. apply in_map_iff. exists (n, t). auto.
Qed.

(** without configinfo *)
Lemma rebuilt_bytes src rest files bs order time stamp : rebuilt src f_versions rest files -> packable_names src rest -> In (f_versions, Some (TFile bs)) files -> ~ looks_like_container bs ->
  ~ In configinfo rest -> listing_order order -> times_ok time -> stamps_ok stamp (f_versions :: rest) -> packed_size deflate stamp time (on_disk files) < 2147483647 ->
  exists bytes M, pack deflate digest os stamp [([48%N], order (to_nodes time (on_disk files)))] = Ok bytes /\
    forall sched n fuel depth, any_order sched -> (2 <= n)%nat -> (M <= fuel)%nat ->
    exists src', unpack inf n fuel depth sched bytes = Ok [src'] /\ same_folder [f_versions] (f_versions :: rest) src src' /\ dget f_versions src' = Some (TFile bs).
Proof.
  intros Hr Hp Hv Hbs Hci Hord Ht Hst Hsz. destruct (rebuilt_folder _ _ _ _ _ Hr Hp Hv) as (fo & -> & Hnd & P & Hns & Hin & Hall).
  rewrite (on_disk_all fo Hnd) in *.
  destruct (@folder_pipeline deflate digest os inf stamp time order fo) as (bytes & M & B & U).
  - intros ->. apply Permutation_sym, Permutation_nil in P. discriminate.
  - exact Hnd.
  - intros Q. apply (Permutation_in _ (Permutation_sym P)) in Q. destruct Q as [Q|Q]; [discriminate|contradiction].
  - apply (Permutation_Forall P). constructor; [apply versions_name|]. apply Forall_forall. intros n Hn. apply (Hp n Hn).
  - intros n t Hi. destruct (Hall n t Hi) as [[-> ->]|(Hn & _ & t0 & E0 & Pk & Sm)].
    + split; [exact Hbs|]. split; [exact Logic.I|]. intros l Q. discriminate.
    + destruct (packable_item time n t0 t Ht Pk Sm) as [V F]. split; [exact V|]. split; [exact F|]. intros l -> Q. apply (Permutation_in _ (Permutation_sym P)) in Q.
      destruct Q as [Q|Q]; [symmetry in Q; exact (temp_not_versions _ Q)|]. destruct t0 as [d|l0]; [destruct Sm|]. exact (proj2 (proj2 (Hp n Hn)) l0 E0 Q).
  - exact Hinf.
  - exact Hord.
  - intros n Hn. apply Hst. apply (Permutation_in _ (Permutation_sym P)), Hn.
  - exact Hsz.
  - exists bytes, M. split; [exact B|]. intros sched n fuel depth H1 H2 H3. destruct (U sched n fuel depth H1 H2 H3) as (src' & E & Pn & Hn' & Hs). exists src'. split; [exact E|]. split.
    + split; [transitivity (map fst fo); assumption|]. split; [exact Hn'|]. intros m Hm Hne.
      assert (Hmf : In m (map fst fo)) by (apply (Permutation_in _ P), Hm). apply in_map_iff in Hmf. destruct Hmf as ([k t] & Ek & Hk). cbn [fst] in Ek. subst k.
      destruct (Hall m t Hk) as [[-> _]|(_ & _ & t0 & E0 & _ & Sm)]; [exfalso; apply Hne; left; reflexivity|]. rewrite E0. eapply same_trans; [exact Sm|]. apply (Hs m t Hk).
    + pose proof (Hs _ _ Hin) as Q. destruct (dget f_versions src') as [[d|l]|]; cbn [same_entry] in Q; [congruence|destruct Q|destruct Q].
Qed.
End M.
