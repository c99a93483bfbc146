(** C95: what a form that was built is split into.  Model: OrgForm.v; specification: Spec_OrgForm.v; proofs: OrgFormAgain.v. *)
From Coq Require Import String Permutation Lia.
From Verif Require Import PyBase PyText JsonText UpdateDictProofs ClassesProofs OrgForm OrgFormProofs Spec_OrgForm OrgFormMain OrgFormDocs OrgFormGood OrgFormAgain Props_OrgForm.
Open Scope string_scope.
Open Scope list_scope.
Open Scope N_scope.

(** ** C95: the same files, with the same data in the same order *)
(** The files that are read may hold their data in any order; nothing of it is seen in the files of the second extraction. *)
Theorem C95_built_form_splits_alike : forall fuel d tree treew data places files owner,
  document d tree data -> areas_at [] tree places -> writable_tree tree treew -> NoDup (map p_name places) -> ~ In fe_root (map p_name places) ->
  NoDup (map fst data) -> no_nulls data -> (forall p, In p places -> p_written p = false -> dget (under (p_path p) fe_pages) data = None) ->
  unpack_docs fuel (Jobj d) = Ok files -> unpack_docs fuel (Jobj (dset fe_tree (Jlist treew) d)) = Ok owner ->
  forall kept read, In (fe_root, kept) files ->
    (forall n j, n <> fe_root -> In (n, j) owner -> exists j', read n = Ok j' /\ same_document j j' /\ distinct_data j') ->
    exists doc, pack_docs fuel read kept = Ok doc /\ unpack_docs fuel doc = Ok files.
Proof.
  intros fuel d tree treew data places files owner Hd Ha Hwt Hnm Hroot Hnd Hnn Hpg Ef Eo kept read Hk Hr.
  destruct (@C78_read_only_areas_restored fuel _ _ _ _ _ _ _ Hd Ha Hwt Hnm Hroot Hnd Hnn Hpg Ef Eo) as (N1 & _ & R).
  destruct (R kept read Hk Hr) as (doc & P1 & P2 & P3). exists doc. split; [exact P1|]. refine (@split_again fuel d tree data files kept read doc Hd Hnd Ef _ P1 P2 P3).
  apply in_dget; [|exact Hk]. rewrite N1. apply (@Permutation_NoDup _ (fe_root :: map p_name (filter p_written places))); [apply Permutation_cons_append|]. constructor; [|].
  - intros Q; apply Hroot; apply in_map_iff in Q; destruct Q as (pl & Eq & Q); apply filter_In in Q; apply in_map_iff; exists pl; split; [exact Eq|apply Q].
  - clear -Hnm. induction places as [|p places IH]; [constructor|]. cbn in Hnm. inversion Hnm as [|? ? H1 H2]; subst. cbn. destruct (p_written p); cbn; [constructor|]; auto.
    intros Q. apply H1. apply in_map_iff in Q. destruct Q as (pl & Eq & Q). apply filter_In in Q. apply in_map_iff. exists pl. split; [exact Eq|apply Q].
Qed.
Print Assumptions C95_built_form_splits_alike.

(** The same for any number of extractions and builds: from the first extraction on, the files do not change. *)
Fixpoint rounds (k : nat) (fuel : nat) (d : jval) : res (list (list N * jval)) :=
  match k with
  | O => unpack_docs fuel d
  | S k => files <- unpack_docs fuel d ;; match dget fe_root files with Some kept => doc <- pack_docs fuel (read_from files) kept ;; rounds k fuel doc | None => Err FileNotFoundError end
  end.
Lemma rounds_stay fuel doc files kept : dget fe_root files = Some kept -> unpack_docs fuel doc = Ok files -> pack_docs fuel (read_from files) kept = Ok doc -> forall k, rounds k fuel doc = Ok files.
Proof. intros Hk Hu Hp. induction k as [|k IH]; [exact Hu|]. cbn [rounds]. rewrite Hu. cbn [bind]. rewrite Hk, Hp. cbn [bind]. exact IH. Qed.
Theorem C95_files_stay : forall fuel d tree data places files,
  document d tree data -> areas_at [] tree places -> Forall (fun p => p_written p = true) places -> NoDup (map p_name places) -> ~ In fe_root (map p_name places) ->
  NoDup (map fst data) -> no_nulls data -> unpack_docs fuel (Jobj d) = Ok files -> forall k, rounds k fuel (Jobj d) = Ok files.
Proof.
  intros fuel d tree data places files Hd Ha Hw Hnm Hroot Hnd Hnn Hu k. destruct (@C77_areas_restored fuel _ _ _ _ _ Hd Ha Hw Hnm Hroot Hnd Hnn Hu) as [N1 R].
  assert (N2 : NoDup (map fst files)) by (rewrite N1; apply (@Permutation_NoDup _ (fe_root :: map p_name places)); [apply Permutation_cons_append|]; constructor; assumption).
  assert (Hi : In fe_root (map fst files)) by (rewrite N1; apply in_or_app; right; left; reflexivity).
  apply in_map_iff in Hi. destruct Hi as ([x kept] & E & Hi). cbn in E. subst x.
  destruct (R kept (read_from files) Hi) as (doc & P1 & P2 & P3).
  - intros n j Hn Hj. exists j. unfold read_from. rewrite (@in_dget _ _ _ _ N2 Hj). split; [reflexivity|].
    destruct (@unpack_docs_nd _ _ _ Hu _ _ Hn Hj) as (a & -> & Q). split.
    + eexists. eexists. split; [reflexivity|]. split; [reflexivity|]. split; [reflexivity|]. split; [reflexivity|]. intros y Hy. exists y. split; [exact Hy|intros c; reflexivity].
    + intros dd y E Hy. injection E as <-. cbn in Hy. injection Hy as <-. exact Q.
  - pose proof (@in_dget _ _ _ _ N2 Hi) as Hk. destruct k as [|k]; [exact Hu|]. cbn [rounds]. rewrite Hu. cbn [bind]. rewrite Hk, P1. cbn [bind].
    apply rounds_stay with (kept := kept); [exact Hk| |exact P1]. exact (@split_again fuel d tree data files kept _ doc Hd Hnd Hu Hk P1 P2 P3).
Qed.
Print Assumptions C95_files_stay.

(** ** Cases: the form of Props_OrgForm.v; with the owner's file in another order *)
Definition turned (j : jval) : jval := match j with Jobj [(a, Jobj data); b] => Jobj [(a, Jobj (rev data)); b] | _ => j end.
Definition ex_read (n : list N) : res jval := match read_from ex_owner n with Ok j => Ok (turned j) | Err e => Err e end.
Definition ex_kept : jval := Eval vm_compute in match dget fe_root ex_files with Some j => j | None => Jnull end.
Definition ex_built : jval := Eval vm_compute in match pack_docs 5 ex_read ex_kept with Ok j => j | Err _ => Jnull end.
Lemma turned_same a t : NoDup (map fst a) -> same_document (Jobj [(k_data, Jobj a); (k_tree, t)]) (turned (Jobj [(k_data, Jobj a); (k_tree, t)])) /\ distinct_data (turned (Jobj [(k_data, Jobj a); (k_tree, t)])).
Proof.
  intros H. assert (H2 : NoDup (map fst (rev a))) by (rewrite map_rev; apply (@Permutation_NoDup _ (map fst a)); [apply Permutation_rev|exact H]). split.
  - eexists. eexists. split; [reflexivity|]. split; [reflexivity|]. split; [reflexivity|]. split; [intros k Hk; cbn; destruct (str_eqb k k_data) eqn:E; [apply str_eqb_spec in E; contradiction|reflexivity]|].
    intros x Hx. cbn in Hx. injection Hx as <-. exists (rev a). split; [reflexivity|]. intros k. destruct (dget k a) as [v|] eqn:E.
    + symmetry. apply in_dget; [exact H2|]. apply in_rev. rewrite rev_involutive. apply dget_in. exact E.
    + symmetry. apply dget_not_in. rewrite map_rev. intros Q. apply in_rev in Q. apply dget_not_in in E. contradiction.
  - intros d x E Hx. injection E as <-. cbn in Hx. injection Hx as <-. exact H2.
Qed.
Lemma ex_owner_nodup : NoDup (map fst ex_owner).
Proof. apply nodupb_ok. vm_compute. reflexivity. Qed.
Example C95_case : pack_docs 5 ex_read ex_kept = Ok ex_built /\ unpack_docs 5 ex_built = Ok ex_files /\ ex_built <> Jobj (form_doc ex_tree ex_form_data).
Proof.
  destruct C77_C78_C79_hypotheses as (Hd & H1 & H2 & H3 & H4 & H5 & H6 & H7 & _).
  destruct (@C95_built_form_splits_alike 5 _ _ _ _ _ _ _ Hd ex_areas_at ex_writable H1 H2 H3 H4 H5 H6 H7 ex_kept ex_read) as (doc & P1 & P2).
  - right. left. reflexivity.
  - intros n j Hn Hi. destruct (@unpack_docs_nd _ _ _ H7 _ _ Hn Hi) as ([a t] & -> & Q). cbn [a_data] in Q. exists (turned (area_json (mkarea a t))). split; [|exact (turned_same a t Q)].
    unfold ex_read, read_from. rewrite (@in_dget _ _ _ _ ex_owner_nodup Hi). reflexivity.
  - assert (doc = ex_built) as ->. { enough (E : Ok doc = Ok ex_built) by (injection E as ->; reflexivity). rewrite <- P1. vm_compute. reflexivity. }
    split; [exact P1|]. split; [exact P2|]. vm_compute. discriminate.
Qed.
Example C95_rounds_case : forall k, rounds k 5 (Jobj (form_doc ex_treew ex_form_data)) = Ok ex_owner.
Proof.
  apply (@C95_files_stay 5 (form_doc ex_treew ex_form_data) ex_treew ex_form_data ex_areas_ok); [split; reflexivity|exact ex_areas_atw|repeat (apply Forall_cons; [reflexivity|]); apply Forall_nil|apply nodupb_ok; vm_compute; reflexivity|intros [H|[H|[]]]; vm_compute in H; discriminate|apply nodupb_ok; vm_compute; reflexivity|apply no_nullsb; vm_compute; reflexivity|].
  vm_compute. reflexivity.
Qed.
