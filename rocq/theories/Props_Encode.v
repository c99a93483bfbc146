(** C33: assembling nested objects in parallel.  Model: EncodeLoop.v; specification: Spec_Encode.v. *)
From Coq Require Import String Permutation.
From Verif Require Import PyBase Utf Container Spec_Container ContainerProofs EncodeLoop EncodeLoopProofs Spec_Encode EncodeLoopMain EncodeLoopSpec.
Open Scope list_scope.
Open Scope N_scope.

(** entries handed to the top object's encode method, by type *)
Definition entries_of {D} (idx : option (tindex D)) (t : list N) : list (entry D) := match idx with Some d => of_type d t | None => [] end.

(** For every tree of source folders (any depth and width), whatever the handlers do ([finish])
    and in whatever order the pool completes the tasks of each round: if the bottom-up assembly
    exists, encode ends within two rounds per level, hands the top object exactly the children's
    data of the assembly, fills its header as specified and lists exactly the written files. *)
Theorem C33_parallel_assembly : forall D lower finish root (cs : list (node (list (slot D)))) ks fs sched fuel,
  wf_all lower cs -> schedule sched -> assembled_all lower finish cs ks fs -> (2 * height_all cs <= fuel)%nat ->
  exists idx files, encode_top lower finish fuel sched root cs = Ok (idx, files) /\
    Permutation files fs /\ (forall t, Permutation (entries_of idx t) (kids_of t ks)) /\
    (forall ss ss', ks <> [] -> (top_slots lower true idx ss = Ok ss' <-> Forall2 (filled lower ks) ss ss')) /\
    (forall ss, top_slots lower false idx ss = Ok ss) /\ (ks = [] -> forall ss, top_slots lower true idx ss = Ok ss).
Proof.
  intros D lower finish root cs ks fs sched fuel Hwf Hs Ha Hf. destruct (@encode_top_ok D lower finish root cs ks fs sched fuel Hwf Hs Ha Hf) as (idx & files & E & HP & Hd & Hi).
  exists idx, files. split; [exact E|]. split; [exact HP|]. split; [|split; [|split]].
  - intros t. destruct idx as [d|]; cbn; [destruct Hi as (_ & _ & H & _); exact (H t)|rewrite Hi; constructor].
  - intros ss ss' Hne. destruct idx as [d|]; [|contradiction]. destruct Hi as (_ & _ & H & Hnil). destruct d as [|e d]; [destruct (Hne (Hnil eq_refl))|]. cbn [top_slots].
    apply fill_slots_spec; [exact Hd|exact H].
  - intros ss. destruct idx as [[|e d]|]; reflexivity.
  - intros Hk ss. destruct idx as [d|]; [destruct Hi as (Hi & _); contradiction|reflexivity].
Qed.
Print Assumptions C33_parallel_assembly.

(** If there is no bottom-up assembly (a handler fails, a listed uuid has no source, an object's
    subfolders give no data), every schedule fails. *)
Theorem C33_failure_on_every_schedule : forall D lower finish root (cs : list (node (list (slot D)))) sched fuel,
  wf_all lower cs -> schedule sched -> (forall ks fs, ~ assembled_all lower finish cs ks fs) ->
  exists e, encode_top lower finish fuel sched root cs = Err e.
Proof. intros. apply (@encode_top_err D lower finish); assumption. Qed.
Print Assumptions C33_failure_on_every_schedule.

(** The assembly is a function of the tree, so the specification determines the result. *)
Theorem C33_assembly_unique : forall D lower finish (cs : list (node (list (slot D)))) ks fs ks' fs', wf_all lower cs ->
  assembled_all lower finish cs ks fs -> assembled_all lower finish cs ks' fs' -> ks = ks' /\ fs = fs'.
Proof.
  intros D lower finish cs ks fs ks' fs' Hwf H1 H2. apply (@build_all_slots_spec D lower finish cs ks fs (proj2 Hwf)) in H1. apply (@build_all_slots_spec D lower finish cs ks' fs' (proj2 Hwf)) in H2. split; congruence.
Qed.
Print Assumptions C33_assembly_unique.

(** Two runs with different schedules, if they finish, give the same header and the same files. *)
Theorem C33_schedule_free : forall D lower finish root (cs : list (node (list (slot D)))) s1 s2 f1 f2 i1 i2 l1 l2,
  wf_all lower cs -> schedule s1 -> schedule s2 ->
  encode_top lower finish f1 s1 root cs = Ok (i1, l1) -> encode_top lower finish f2 s2 root cs = Ok (i2, l2) ->
  Permutation l1 l2 /\ (forall t, Permutation (entries_of i1 t) (entries_of i2 t)) /\ forall auto ss, top_slots lower auto i1 ss = top_slots lower auto i2 ss.
Proof.
  intros D lower finish root cs s1 s2 f1 f2 i1 i2 l1 l2 Hwf Hs1 Hs2 E1 E2.
  assert (Hex : exists ks fs, assembled_all lower finish cs ks fs).
  { destruct (build_all (with_slots lower finish) cs) as [[ks fs]|e] eqn:E; [exists ks, fs; apply (@build_all_slots_spec D lower finish cs ks fs (proj2 Hwf)); exact E|].
    exfalso. destruct (@encode_top_err D lower finish root cs s1 f1 Hwf Hs1) as [e' He']; [|unfold encode_top in E1; rewrite He' in E1; discriminate]. intros ks fs H. apply (@build_all_slots_spec D lower finish cs ks fs (proj2 Hwf)) in H. congruence. }
  destruct Hex as (ks & fs & Ha).
  assert (Hrun : forall s f i l, schedule s -> encode_top lower finish f s root cs = Ok (i, l) ->
     Permutation l fs /\ distinct_kids lower ks /\ match i with Some d => ks <> [] /\ tok d ks | None => ks = [] end).
  { intros s f i l Hs E. destruct (@encode_top_ok D lower finish root cs ks fs s (f + 2 * height_all cs) Hwf Hs Ha ltac:(lia)) as (idx & files & E' & R).
    unfold encode_top, encode_tree in E, E'. destruct (loop (with_slots lower finish) f 0 s _) as [x|] eqn:El; [|discriminate]. apply loop_mono with (k := (2 * height_all cs)%nat) in El. rewrite El in E'. cbn [bind] in *.
    assert (idx = i) by congruence. assert (files = l) by congruence. subst. exact R. }
  destruct (Hrun s1 f1 i1 l1 Hs1 E1) as (P1 & Hd & H1). destruct (Hrun s2 f2 i2 l2 Hs2 E2) as (P2 & _ & H2).
  split; [rewrite P1, P2; reflexivity|]. destruct i1 as [d1|], i2 as [d2|].
  - destruct H1 as (Hk & T1), H2 as (_ & T2). pose proof T1 as (_ & A1 & N1). pose proof T2 as (_ & A2 & N2). split; [intros t; cbn; rewrite (A1 t), (A2 t); reflexivity|].
    intros auto ss. destruct d1 as [|e1 d1]; [destruct (Hk (N1 eq_refl))|]. destruct d2 as [|e2 d2]; [destruct (Hk (N2 eq_refl))|]. cbn [top_slots]. destruct auto; [|reflexivity].
    apply fill_slots_perm; [intros t; rewrite (A1 t), (A2 t); reflexivity|]. intros t. destruct (Hd t) as [M1 M2]. split; [refine (Permutation_NoDup _ M1)|refine (Permutation_NoDup _ M2)]; apply Permutation_map; symmetry; exact (A1 t).
  - destruct H1 as (Hk & _). contradiction.
  - destruct H2 as (Hk & _). contradiction.
  - split; [intros t; constructor|reflexivity].
Qed.
Print Assumptions C33_schedule_free.

(** ** Examples and defects.  Data are texts; a handler writes a file named like the uuid and hands
    on its name and the data of its included objects in parentheses. *)
Definition show_item (i : item (list N)) : list N := match i with Id _ u => u | Data d => d end.
Definition show_slot (s : slot (list N)) : list N := match s with Auto _ t => t | Listed _ is => flat_map show_item is end.
Definition fin (i : info (list (slot (list N)))) (ss : list (slot (list N))) : res (option (list N) * list (list N)) :=
  Ok (Some (i_name i ++ [40] ++ flat_map show_slot ss ++ [41]), [i_uuid i]).
Definition s (x : string) : list N := u x.
Definition leaf (t name uuid : string) : node (list (slot (list N))) := Node (mkinfo (s t) (s name) (s t) true (s name) (s uuid) []) [].
Definition catalog : node (list (slot (list N))) :=
  Node (mkinfo (s "Catalog") (s "Goods") (s "Catalog") true (s "Goods") (s "u0") [Auto _ (s "Attribute"); Listed (Some (s "Form")) [Id _ (s "F2"); Id _ (s "f1")]])
       [leaf "Attribute" "Price" "u1"; leaf "Attribute" "Art" "u2"; leaf "Form" "List" "f1"; leaf "Form" "Item" "f2"].
Definition low : list N -> list N := map (fun c => if (65 <=? c) && (c <=? 90) then c + 32 else c).
Definition fwd : nat -> list (task (list N) (list (slot (list N)))) -> list (task (list N) (list (slot (list N)))) := fun _ l => l.
Definition bwd : nat -> list (task (list N) (list (slot (list N)))) -> list (task (list N) (list (slot (list N)))) := fun _ l => rev l.
Lemma fwd_ok : schedule fwd. Proof. intros n l. reflexivity. Qed.
Lemma bwd_ok : schedule bwd. Proof. intros n l. symmetry. apply Permutation_rev. Qed.

Example C33_example_run : forall sched, In sched [fwd; bwd] ->
  exists idx files, encode_top low fin 10 sched (s "Configuration") [catalog] = Ok (idx, files) /\
    top_slots low true idx [Auto _ (s "Catalog")] = Ok [Listed (Some (s "Catalog")) [Data (s "Goods(Art()Price()Item()List())")]].
Proof. intros sched [<-|[<-|[]]]; vm_compute; eexists; eexists; split; reflexivity. Qed.

Fixpoint nodupb (l : list (list N)) : bool := match l with [] => true | x :: r => negb (existsb (str_eqb x) r) && nodupb r end.
Lemma nodupb_ok l : nodupb l = true -> NoDup l.
Proof.
  induction l as [|x l IH]; [constructor|]. cbn. intros H. apply andb_true_iff in H. destruct H as [H1 H2]. constructor; [|auto]. intros Hin.
  apply negb_true_iff in H1. rewrite <- not_true_iff_false in H1. apply H1. apply existsb_exists. exists x. split; [exact Hin|apply str_eqb_refl].
Qed.
Lemma siblings_ok lw (l : list (node (list (slot (list N))))) : NoDup (map (@tag _) l) ->
  NoDup (map (fun n => i_name (n_info n)) l) -> NoDup (map (fun n => lw (i_uuid (n_info n))) l) -> distinct_siblings lw l.
Proof.
  intros H0 H1 H2. split; [exact H0|]. intros t. unfold siblings. split; apply nodup_map_filter; assumption.
Qed.
Lemma leaf_wf lw t n u0 : ~ In 47 (s t) -> ~ In 47 (s n) -> wf lw (leaf t n u0).
Proof.
  intros H1 H2. constructor; [exact H1|exact H2| |contradiction]. apply siblings_ok; constructor.
Qed.
Lemma no47 l : forallb (fun c => negb (N.eqb c 47)) l = true -> ~ In 47 l.
Proof. intros H Hin. rewrite forallb_forall in H. specialize (H _ Hin). discriminate. Qed.
Example C33_example_wf : wf_all low [catalog].
Proof.
  split; [apply siblings_ok; constructor; try constructor; intros []|]. intros c [<-|[]].
  constructor; [apply no47; reflexivity|apply no47; reflexivity| |].
  - apply siblings_ok; [apply (NoDup_map_inv snd); apply nodupb_ok; vm_compute; reflexivity|apply nodupb_ok; vm_compute; reflexivity|apply nodupb_ok; vm_compute; reflexivity].
  - intros c [<-|[<-|[<-|[<-|[]]]]]; apply leaf_wf; apply no47; reflexivity.
Qed.
Example C33_example_assembled : exists ks fs, ks <> [] /\ assembled_all low fin [catalog] ks fs.
Proof.
  destruct (build_all (with_slots low fin) [catalog]) as [[ks fs]|] eqn:E; [|vm_compute in E; discriminate]. exists ks, fs. split; [intros ->; vm_compute in E; discriminate|].
  apply (@build_all_slots_spec (list N) low fin [catalog] ks fs (proj2 C33_example_wf)). exact E.
Qed.

(** Distinct names are needed: with two attributes of one name the order in the header is the
    order of completion. *)
Theorem C33_equal_names_refuted : exists cs i1 i2 l1 l2,
  encode_top low fin 10 fwd (s "Configuration") cs = Ok (i1, l1) /\ encode_top low fin 10 bwd (s "Configuration") cs = Ok (i2, l2) /\
  NoDup (map (fun n => i_uuid (n_info n)) cs) /\ NoDup (map (@tag (list (slot (list N)))) cs) /\
  top_slots low true i1 [Auto _ (s "Form")] <> top_slots low true i2 [Auto _ (s "Form")].
Proof.
  exists [Node (mkinfo (s "Form") (s "f1") (s "Form") true (s "X") (s "u1") [Auto _ (s "a")]) []; Node (mkinfo (s "Form") (s "f2") (s "Form") true (s "X") (s "u2") [Auto _ (s "b")]) []].
  do 4 eexists. split; [vm_compute; reflexivity|]. split; [vm_compute; reflexivity|]. split; [apply nodupb_ok; reflexivity|].
  split; [apply (NoDup_map_inv snd); apply nodupb_ok; vm_compute; reflexivity|]. vm_compute. discriminate.
Qed.
Print Assumptions C33_equal_names_refuted.

(** The order of the list of files (and so of the file "versions") is the order of completion. *)
Theorem C33_file_order_refuted : exists i1 i2 l1 l2,
  encode_top low fin 10 fwd (s "Configuration") [catalog] = Ok (i1, l1) /\ encode_top low fin 10 bwd (s "Configuration") [catalog] = Ok (i2, l2) /\ l1 <> l2.
Proof. do 4 eexists. split; [vm_compute; reflexivity|]. split; [vm_compute; reflexivity|]. vm_compute. discriminate. Qed.
Print Assumptions C33_file_order_refuted.

(** An object whose subfolders give no data (for example a folder left over without its
    <type>.json) makes the whole build fail, on every schedule. *)
Theorem C33_leftover_folder_fails : forall D lower finish root i j cs sched fuel,
  wf_all lower [Node i [Node j cs]] -> i_marked i = true -> i_marked j = false -> schedule sched ->
  exists e, encode_top (D := D) lower finish fuel sched root [Node i [Node j cs]] = Err e.
Proof.
  intros D lower finish root i j cs sched fuel Hwf Hi Hj Hs. apply (@encode_top_err D lower finish); [exact Hwf|exact Hs|]. intros ks fs H.
  inversion H as [|? ? ? ? ? ? H1 H2]; subst. inversion H1 as [? ? E|? ? ? ? ?|? ? k2 f2 d own ? ? ? Ha Hk ?]; subst; [congruence|].
  inversion Ha as [|? ? ? ? ? ? Hc Hcs]; subst. inversion Hcs; subst. inversion Hc as [| |]; subst; [apply Hk; reflexivity|congruence|congruence].
Qed.
Print Assumptions C33_leftover_folder_fails.

(** An object of a type with several classes (a form) that has a subfolder named like a type makes
    the whole build fail, on every schedule and wherever it lies. *)
Theorem C33_versioned_type_with_children_fails : forall D lower finish root i c cs rest sched fuel,
  wf_all lower (Node i (c :: cs) :: rest) -> i_marked i = true -> i_class i <> i_type i -> schedule sched ->
  exists e, encode_top (D := D) lower finish fuel sched root (Node i (c :: cs) :: rest) = Err e.
Proof.
  intros D lower finish root i c cs rest sched fuel Hwf Hi Hc Hs. apply (@encode_top_err D lower finish); [exact Hwf|exact Hs|]. intros ks fs H.
  inversion H as [|? ? ? ? ? ? H1 H2]; subst. inversion H1; subst; congruence.
Qed.
Print Assumptions C33_versioned_type_with_children_fails.

(** With auto_include, a top object none of whose children has data keeps the name of the type in
    its header instead of an empty list. *)
Theorem C33_placeholder_kept : forall D lower finish root t sched fuel,
  exists idx l, encode_top (D := D) lower finish fuel sched root [] = Ok (idx, l) /\ top_slots lower true idx [Auto D t] = Ok [Auto D t].
Proof. intros. exists None, []. split; [destruct fuel; reflexivity|reflexivity]. Qed.
Print Assumptions C33_placeholder_kept.
