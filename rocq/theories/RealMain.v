(** Every object that stands in a container folder as it should is handled. *)
From Coq Require Import String Permutation.
From Verif Require Import PyBase PyInt PyText Utf Brace Spec_Brace BraceMore JsonText JsonTextProofs JsonObj Header Pipeline Spec_Stage ObjCode Spec_Obj Payload PayloadProofs MetaObj Spec_MetaObj MetaObjBase MetaObjGood MetaObjMain ClassesProofs Props_MetaObj
  Container ContainerProofs Spec_Container EncodeLoop EncodeLoopProofs Spec_Encode EncodeLoopMain Types Include Spec_Include IncludeProofs IncludeMain Tree Spec_Tree TreeProofs TreeBuild Classes MetaObj Real Spec_Real RealProofs.
Set Implicit Arguments.
Open Scope list_scope.
Open Scope N_scope.

Section R.
Variable os : platform.
Variable alnum : N -> bool.
Variable valid : list N -> bool.
Variable lower : list N -> list N.
Variable auto : bool.
Variable version : list N.
Variable src : folder.
Variable other_dec : list N -> list N -> res (list N * folder * list (list N * list (child (list N * folder)))).
Variable other_enc : info folder -> res (option val * list written).
Hypothesis Hver : Forall scalar version.
Notation inner := (inner_of os alnum valid src).
Notation dec := (real_dec os alnum valid auto version src other_dec).
Notation enc := (real_enc os alnum lower version other_enc).
Notation object := (object folder written).
Notation handled := (handled lower real_lists real_rd dec enc).
Notation placed := (placed os alnum valid lower auto version src other_dec other_enc).
Notation made := (made os alnum valid src).

Inductive models : item -> object -> Prop :=
| models_item c u n b d ks own fs os' : Forall2 models ks os' -> map fst fs = it_files src (Item c u n b d ks) -> Forall (fun e : written => same_entry (dget (fst e) src) (snd e)) fs ->
    models (Item c u n b d ks) (Object (c_name c) u n b own (it_val (Item c u n b d ks)) fs os').

Lemma truthy_str s : s <> [] -> truthy (VStr s) = Some (VStr s).
Proof. destruct s; [congruence|reflexivity]. Qed.
Lemma own_files store c uuid n : In n (object_files store c uuid src) -> (store = true /\ n = uuid) \/ In n (map (dotted uuid) (numbers c)).
Proof.
  assert (K : forall ns, incl ns (numbers c) -> In n (here uuid src ns) -> In n (map (dotted uuid) (numbers c))).
  { intros ns Hi Hn. unfold here in Hn. apply in_flat_map in Hn. destruct Hn as (m & Hm & Hn). destruct (dget (dotted uuid m) src); [|destruct Hn]. destruct Hn as [<-|[]]. apply in_map. apply Hi. exact Hm. }
  unfold object_files. intros H. apply in_app_or in H. destruct H as [H|H]; [right; eapply K; [|exact H]; intros m Hm; unfold numbers; apply in_or_app; right; rewrite map_app; apply in_or_app; auto|].
  apply in_app_or in H. destruct H as [H|H]; [destruct store; [destruct H as [<-|[]]; auto|destruct H]|]. right.
  apply in_app_or in H. destruct H as [H|H]; (eapply K; [|exact H]); intros m Hm; unfold numbers; apply in_or_app; [left; exact Hm|right; rewrite map_app; apply in_or_app; auto].
Qed.
Lemma nodot_same name : ~ In 46 name -> ObjCodeMain.nodot name. Proof. exact (fun H => H). Qed.

(** an object with a file of its own *)
Lemma build_store c (X : Type) (includes : val -> res (val * X)) fill x uuid name locs comment data hdr :
  In c classes -> named valid uuid name -> object_at os alnum c src uuid name locs comment data hdr -> in_file os src uuid data -> carried c (VStr (version_of version c)) data includes fill x ->
  exists own fs, obj_decode_data os alnum valid c [] (VStr (version_of version c)) includes src (VList data) = Ok (uuid, name, own, x) /\
    build_one os alnum version true c fill own = Ok (Some (VStr uuid), fs) /\
    map fst fs = object_files true c uuid src /\ Forall (fun e : written => same_entry (dget (fst e) src) (snd e)) fs /\
    real_rd (c_name c) own = Some (name, uuid) /\ exists tree, source_tree (c_name c) own = Ok tree /\ format_ok (c_format c) tree = true.
Proof.
  intros Hc (Hn & _ & Hv & Hne) Hat Hf Hcar.
  destruct (C58_object_restored os alnum valid c [] (version_of version c) X includes fill x src uuid name locs comment data hdr None [] Hc Hn Hat Hf Hcar Hv (@class_version c version Hc Hver) (or_introl (conj eq_refl (or_introl eq_refl))))
    as (own & D & _ & B). destruct (B own [] (fun _ _ => eq_refl) eq_refl (fun _ _ => eq_refl)) as (out' & E & S1 & _).
  destruct Hf as (bs & Hf & Hb). unfold obj_decode in D. rewrite (brace_read_bytes _ _ _ _ _ Hb Hf) in D. cbn [bind] in D.
  exists own, (map (fun n => (n, dget n out')) (object_files true c uuid src)). split; [exact D|]. split.
  { unfold build_one. rewrite E. cbn [b_uuid b_files b_tree]. rewrite truthy_str by exact Hne. reflexivity. }
  split; [rewrite map_map; apply map_id|]. split.
  { apply Forall_forall. intros e He. apply in_map_iff in He. destruct He as (n & <- & He). cbn [fst snd]. apply S1. destruct (@own_files _ _ _ _ He) as [[_ ->]|H]; [left; reflexivity|right; exact H]. }
  destruct (@encode_reads _ _ _ _ _ _ _ _ _ _ E) as [R1 R2]. split; [exact R1|exact R2].
Qed.
Lemma build_inner c uuid name locs comment data hdr :
  In c inner_classes -> named valid uuid name -> object_at os alnum c src uuid name locs comment data hdr -> Forall scalar (concat (leaves (VList data))) ->
  exists own fs, inner_decode os alnum valid c [] src (VList data) = Ok (uuid, name, own, tt) /\
    build_one os alnum version false c (@Ok val) own = Ok (Some (VList data), fs) /\
    map fst fs = object_files false c uuid src /\ Forall (fun e : written => same_entry (dget (fst e) src) (snd e)) fs /\
    real_rd (c_name c) own = Some (name, uuid) /\ exists tree, source_tree (c_name c) own = Ok tree /\ format_ok (c_format c) tree = true.
Proof.
  intros Hc (Hn & _ & Hv & Hne) Hat Sd.
  destruct (C58_inner_object_restored os alnum valid c [] (version_of version c) src uuid name locs comment data hdr None [] Hc Hn Hat Sd Hv (or_introl (conj eq_refl (or_introl eq_refl))))
    as (own & D & _ & B). destruct (B own [] (fun _ _ => eq_refl) (fun _ _ => eq_refl)) as (out' & E & S1 & _).
  exists own, (map (fun n => (n, dget n out')) (object_files false c uuid src)). split; [exact D|]. split.
  { unfold build_one. rewrite E. cbn [b_uuid b_files b_tree]. pose proof (oa_header Hat) as Hh. destruct data as [|v data]; [|reflexivity]. exfalso.
    assert (K : forallb (fun c => match c_path c with [] => false | _ => true end) inner_classes = true) by reflexivity. rewrite forallb_forall in K. specialize (K c Hc). destruct (c_path c) as [|i p]; [discriminate|]. cbn [vat vget] in Hh. destruct i; discriminate. }
  split; [rewrite map_map; apply map_id|]. split.
  { apply Forall_forall. intros e He. apply in_map_iff in He. destruct He as (n & <- & He). cbn [fst snd]. apply S1. destruct (@own_files _ _ _ _ He) as [[? _]|H]; [discriminate|exact H]. }
  destruct (@encode_reads _ _ _ _ _ _ _ _ _ _ E) as [R1 R2]. split; [exact R1|exact R2].
Qed.
Lemma inner_of_class c : In c inner_classes -> inner (c_name c) = Some (fun data => ' (uuid, name, own, _) <- inner_decode os alnum valid c [] src data ;; Ok (uuid, (name, own))).
Proof.
  intros Hc. unfold inner_of. assert (E : find (fun d : class => str_eqb (c_name c) (c_name d)) inner_classes = Some c); [|rewrite E; reflexivity].
  vm_compute in Hc. repeat (destruct Hc as [<-|Hc]; [vm_compute; reflexivity|]). destruct Hc.
Qed.
Lemma read_data uuid data : in_file os src uuid data -> brace_read src uuid = Ok (VList data).
Proof. intros (bs & Hf & Hb). exact (brace_read_bytes _ _ _ _ _ Hb Hf). Qed.

Lemma item_handled x : placed x -> exists o, models x o /\ handled o /\ made x o.
Proof.
  induction 1 as [c uuid name locs comment data hdr Hc Hnm Hat Hf|c uuid name locs comment data hdr Hc Hnm Hat Sd|c uuid name locs comment data hdr a b count gs more rest xs Hc Hnm Hat Hf Ed Hl Hto Hid Hls Hdf Hpl IH|c uuid name data own fs Hc Hsl Hnn Hnm Hd Hr He Hfs Hse].
  - pose proof (@simple_in c Hc) as Hcl. destruct (build_store Hcl Hnm Hat Hf (carried_alone c _ data (simple_ids c Hc))) as (own & fs & D & B & Fn & Fs & R & tree & T1 & T2).
    exists (Object (c_name c) uuid name false own (VStr uuid) fs []). split; [|split].
    + change (VStr uuid) with (it_val (Item c uuid name false data [])). constructor; [constructor|exact Fn|exact Fs].
    + assert (Hsn : ~ In 47 name) by apply Hnm. constructor.
      * apply no_slash. exact Hcl.
      * exact Hsn.
      * intros _. exists []. split; [|reflexivity]. unfold real_dec. rewrite (@has_class c Hcl), (read_data Hf). cbn [bind]. rewrite (@pick_simple c _ Hc (oa_format Hat)), D. reflexivity.
      * reflexivity.
      * reflexivity.
      * exact R.
      * intros idx _ _. unfold real_enc, info_of. cbn [fst snd]. rewrite R. cbn [i_type i_data]. rewrite (@has_class c Hcl), T1. cbn [bind]. rewrite (@pick_simple c _ Hc T2). exact B.
      * split; [constructor|intros t; constructor].
      * intros k [].
    + constructor; try reflexivity. apply tk_file.
  - pose proof (@inner_in c Hc) as Hcl. destruct (build_inner Hc Hnm Hat Sd) as (own & fs & D & B & Fn & Fs & R & tree & T1 & T2).
    exists (Object (c_name c) uuid name true own (VList data) fs []). split; [|split].
    + change (VList data) with (it_val (Item c uuid name true data [])). constructor; [constructor|exact Fn|exact Fs].
    + assert (Hsn : ~ In 47 name) by apply Hnm. constructor.
      * apply no_slash. exact Hcl.
      * exact Hsn.
      * discriminate.
      * reflexivity.
      * reflexivity.
      * exact R.
      * intros idx _ _. unfold real_enc, info_of. cbn [fst snd]. rewrite R. cbn [i_type i_data]. rewrite (@has_class c Hcl), T1. cbn [bind]. destruct (@pick_inner c _ Hc T2) as (P1 & P2 & P3). rewrite P1, P2, P3. exact B.
      * split; [constructor|intros t; constructor].
      * intros k [].
    + constructor; try reflexivity. unfold child_of. cbn [snd o_inner o_uuid o_name o_own it_val it_type it_class it_inner it_data]. eapply tk_inner; [apply inner_of_class; exact Hc|]. cbv beta. cbn [it_class]. rewrite D. reflexivity.
  - pose proof (@container_in c Hc) as Hcl.
    assert (K : exists os', Forall2 models xs os' /\ Forall2 made xs os' /\ forall o, In o os' -> handled o).
    { clear - IH. induction xs as [|x xs IHx]; [exists []; split; [constructor|split; [constructor|intros o []]]|]. destruct (IH x (or_introl eq_refl)) as (o & A & B & C). destruct IHx as (os' & A2 & B2 & C2); [intros y Hy; apply IH; right; exact Hy|].
      exists (o :: os'). split; [constructor; assumption|]. split; [constructor; assumption|]. intros y [<-|Hy]; auto. }
    destruct K as (os' & Hm & Hmd & Hh). destruct (groups_listed Hls Hto Hmd Hdf) as (kss & K1 & K2 & _ & K4).
    pose proof (made_distinct Hmd Hdf) as Hdist.
    assert (Hcar : forall idx, (forall t, Permutation (of_type idx t) (entries t os')) -> carried c (VStr (version_of version c)) data (container_decode auto inner) (container_fill lower idx) kss).
    { intros idx Hi. subst data. apply container_carried; [apply inner_texts|exact Hc|exact Hl| |exact K2|rewrite container_version by exact Hc; exact Hid]. apply K4. intros t _. rewrite <- (entries_made t Hmd). apply Hi. }
    set (idx0 := EncodeLoopMain.group (map (@kid_of folder written) os')).
    assert (Hi0 : forall t, Permutation (of_type idx0 t) (entries t os')). { intros t. unfold idx0. rewrite of_group, sel_entries. apply Permutation_refl. }
    destruct (build_store Hcl Hnm Hat Hf (Hcar idx0 Hi0)) as (own & fs & D & B & Fn & Fs & R & tree & T1 & T2).
    exists (Object (c_name c) uuid name false own (VStr uuid) fs os'). split; [|split].
    + change (VStr uuid) with (it_val (Item c uuid name false data xs)). constructor; [exact Hm|exact Fn|exact Fs].
    + assert (Hsn : ~ In 47 name) by apply Hnm. destruct (@pick_container c _ Hc (oa_format Hat)) as [P1 P2]. constructor.
      * apply no_slash. exact Hcl.
      * exact Hsn.
      * intros _. exists kss. split; [|exact K1]. unfold real_dec. rewrite (@has_class c Hcl), (read_data Hf). cbn [bind]. rewrite P1, P2, D. reflexivity.
      * discriminate.
      * unfold real_lists. intros E. exfalso. apply negb_false_iff, orb_true_iff in E. destruct E as [E|E]; apply existsb_exists in E; destruct E as (d & Hd & E); [rewrite (@lists_not d c Hd (or_introl Hc)) in E; discriminate|].
        apply str_eqb_spec in E. subst d. assert (K0 : forallb (fun c => negb (existsb (str_eqb (c_name c)) form_types)) container_classes = true) by reflexivity. rewrite forallb_forall in K0. specialize (K0 c Hc). apply negb_true_iff in K0.
        assert (existsb (str_eqb (c_name c)) form_types = true) by (apply existsb_exists; exists (c_name c); split; [exact Hd|apply str_eqb_refl]). congruence.
      * exact R.
      * intros idx Hi Hie. assert (E : enc (info_of real_rd (c_name c, name) own) idx = enc (info_of real_rd (c_name c, name) own) idx0).
        { apply enc_order_free.
          - intros t. rewrite (Hi t). symmetry. apply Hi0.
          - rewrite Hie. unfold idx0, EncodeLoopMain.group. split; [intros ->; reflexivity|]. intros E. apply map_eq_nil in E. apply map_eq_nil in E. exact E.
          - intros t. destruct Hdist as [D1 D2]. split; [eapply Permutation_NoDup; [apply Permutation_map; symmetry; apply Hi|]|eapply Permutation_NoDup; [apply Permutation_map; symmetry; apply Hi|]].
            + unfold entries. rewrite map_map. cbn [entry_of fst]. apply names_of_tags. exact D1.
            + unfold entries. rewrite map_map. cbn [entry_of fst snd]. apply D2. }
        rewrite E. unfold real_enc, info_of. cbn [fst snd]. rewrite R. cbn [i_type i_data]. rewrite (@has_class c Hcl), T1. cbn [bind]. destruct (@pick_container c _ Hc T2) as [Q1 Q2]. rewrite Q1, Q2. exact B.
      * exact Hdist.
      * exact Hh.
    + constructor; try reflexivity. apply tk_file.
  - assert (Hnc : existsb (fun d : class => str_eqb (c_name c) (c_name d)) classes = false).
    { destruct (existsb _ classes) eqn:E; [|reflexivity]. exfalso. apply existsb_exists in E. destruct E as (d & Hdi & E). apply str_eqb_spec in E. apply Hc. rewrite E. apply in_map. exact Hdi. }
    exists (Object (c_name c) uuid name false own (VStr uuid) fs []). split; [|split].
    + change (VStr uuid) with (it_val (Item c uuid name false data [])). constructor; [constructor|exact Hfs|exact Hse].
    + assert (Hsn : ~ In 47 name) by apply Hnm. constructor; try reflexivity; try assumption.
      * intros _. exists []. split; [|reflexivity]. unfold real_dec. rewrite Hnc. exact Hd.
      * intros idx _ _. unfold real_enc, info_of. cbn [fst snd]. rewrite Hr. cbn [i_type i_data]. rewrite Hnc. exact He.
      * split; [constructor|intros t; constructor].
      * intros k [].
    + constructor; try reflexivity. apply tk_file.
Qed.
End R.
