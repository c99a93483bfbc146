(** The container uuid that a parent gives to its forms is the same at extraction and at the build. *)
From Coq Require Import String Permutation.
From Verif Require Import PyBase PyInt PyText Utf Brace Spec_Brace BraceMore JsonText JsonTextProofs JsonObj Header Pipeline Spec_Stage ObjCode Spec_Obj Payload PayloadProofs MetaObj Spec_MetaObj MetaObjBase MetaObjGood MetaObjMain ClassesProofs Props_MetaObj
  Container ContainerProofs Spec_Container EncodeLoop EncodeLoopProofs Spec_Encode EncodeLoopMain Types Include Spec_Include IncludeProofs IncludeMain Tree Spec_Tree TreeProofs TreeBuild Real Spec_Real RealProofs RealMain UpdateDictProofs Form FormReal Classes MetaObj.
Set Implicit Arguments.
Open Scope list_scope.
Open Scope N_scope.

Lemma fill_keeps lower idx t t' : container_fill lower idx t = Ok t' -> vat [0; 1; 1]%nat t' = vat [0; 1; 1]%nat t.
Proof.
  unfold container_fill. destruct idx as [|e idx]; [intros [= ->]; reflexivity|]. destruct t as [|s|[|x r]]; [discriminate|destruct s; discriminate|discriminate|]. cbn [vget nth_error bind].
  destruct (vfill_include lower (e :: idx) x) as [y|] eqn:E; [|discriminate]. cbn [bind]. intros [= <-]. cbn [vat vget nth_error bind].
  unfold vfill_include in E. destruct x as [| |[|a [|b [|[|c|] rest]]]]; try discriminate. destruct (int_of_str c) as [n|]; [|discriminate]. cbv zeta in E. destruct (length rest <? Z.to_nat n)%nat; [discriminate|].
  destruct (vfill_slots lower (e :: idx) (firstn (Z.to_nat n) rest)) as [ss|]; [|discriminate]. cbn [bind] in E. injection E as <-. reflexivity.
Qed.
Definition keeps_tree (p : part) : bool := match p with PHelp _ _ | PRaw _ _ => true | _ => false end.
Lemma html_keeps os src fname uuid n dest ext h files d h' f : html_encode os src fname uuid n dest s_help ext h files = Ok (d, h', f) -> dget s_header h' = dget s_header h.
Proof.
  unfold html_encode. cbv zeta beta. intros H.
  repeat match type of H with
         | context [match ?x with _ => _ end] => destruct x; try discriminate
         | bind ?x _ = _ => destruct x; try discriminate; cbn [bind] in H
         end; injection H as _ <- _; try reflexivity; apply dget_dset_other; discriminate.
Qed.
Lemma parts_keep os alnum : forall ps srcs fname uuid out h files out' h' files', forallb keeps_tree ps = true ->
  parts_back os alnum ps srcs fname uuid out h files = Ok (out', h', files') -> dget s_header h' = dget s_header h.
Proof.
  induction ps as [|p ps IH]; intros srcs fname uuid out h files out' h' files' Hk H; [cbn [parts_back] in H; congruence|]. cbn [forallb] in Hk. apply andb_true_iff in Hk. destruct Hk as [K1 K2]. cbn [parts_back] in H.
  destruct (part_back os alnum p srcs fname uuid out h files) as [[[o1 h1] f1]|] eqn:E; [|discriminate]. cbn [bind] in H. rewrite (IH _ _ _ _ _ _ _ _ _ K2 H). clear H.
  destruct p; try discriminate K1; cbn [part_back] in E; [eapply html_keeps; exact E|]. destruct (bin_back srcs dname out (dotted uuid n) files) as [[d f]|]; [|discriminate]. cbn [bind] in E. congruence.
Qed.
Lemma form_container c : In c container_classes -> In (c_name c) form_containers ->
  forallb keeps_tree (c_parts c) = true /\ apart (c_path c) [0; 1; 1]%nat /\ c_format c = FAny.
Proof.
  intros H H2. assert (K : forallb (fun c => negb (existsb (str_eqb (c_name c)) form_containers) || forallb keeps_tree (c_parts c)) container_classes = true) by reflexivity.
  rewrite forallb_forall in K. specialize (K c H). rewrite (proj2 (existsb_exists _ _) (ex_intro _ (c_name c) (conj H2 (str_eqb_refl _)))) in K. cbn [negb orb] in K. split; [exact K|].
  clear K. assert (K : forallb (fun c => negb (existsb (str_eqb (c_name c)) form_containers) || match c_path c, c_format c with [0; 1; S (S (S _)); _]%nat, FAny => true | _, _ => false end) container_classes = true) by reflexivity.
  rewrite forallb_forall in K. specialize (K c H). rewrite (proj2 (existsb_exists _ _) (ex_intro _ (c_name c) (conj H2 (str_eqb_refl _)))) in K. cbn [negb orb] in K.
  destruct (c_path c) as [|[|] [|[|[|]] [|[|[|[|n]]] [|m [|]]]]]; try discriminate. destruct (c_format c); try discriminate. split; [|reflexivity]. right; right; left; lia.
Qed.
Lemma encode_container os alnum c v lower idx own out out' uuid name files data : In c container_classes -> In (c_name c) form_containers ->
  obj_encode os alnum true c None v [] (container_fill lower idx) own out = Ok (Some (out', mkbuilt uuid name files (VList data))) -> container_read c v own = vat [0; 1; 1]%nat (VList data).
Proof.
  intros Hc Hn. destruct (form_container Hc Hn) as (K1 & K2 & K3). unfold obj_encode, container_read. cbv zeta.
  destruct (json_read own (dotted (c_name c) x_idjson)) as [ji|e]; [|destruct e; discriminate]. destruct (json_read own (dotted (c_name c) x_json)) as [jh|e]; [|destruct e; discriminate]. cbn [bind].
  destruct ji as [| | | | |di]; try discriminate. cbn [bind]. destruct jh as [| | | | |dh]; try discriminate. cbn [bind]. destruct (str_field s_uuid (header_of di)) as [uuid'|]; [|discriminate]. cbn [bind].
  unfold field at 1. rewrite dget_dset_other by discriminate. fold (field s_header (header_of dh)). destruct (field s_header (header_of dh)) as [tree|]; [|discriminate]. cbn [bind].
  rewrite K3. cbn [format_ok bind]. destruct (put_ids (ids_of c (VStr v)) (header_of di) tree) as [tree2|]; [|discriminate]. cbn [bind].
  unfold container_given. assert (existsb (str_eqb (c_name c)) form_containers = true) as -> by (apply existsb_exists; exists (c_name c); split; [exact Hn|apply str_eqb_refl]).
  set (hh := dset s_uuid (VStr uuid') (header_of dh)).
  destruct (str_field s_name hh) as [nm|]; [|discriminate]. cbn [bind]. destruct (field s_obj_version hh) as [ov|]; [|discriminate]. cbn [bind].
  destruct (container_fill lower idx tree2) as [tree3|] eqn:Ef; [|discriminate]. cbn [bind]. rewrite <- (fill_keeps _ _ _ Ef).
  destruct (parts_back os alnum (c_parts c) own (c_name c) uuid' out (dset s_header tree3 hh) []) as [[[o1 h1] f1]|] eqn:Ep; [|discriminate]. cbn [bind]. apply parts_keep in Ep; [|exact K1]. rewrite dget_dset_same in Ep.
  destruct (encode_code own (c_name c) (c_ext c) h1 []) as [codes|]; [|discriminate]. cbn [bind].
  unfold field. rewrite Ep. cbn [bind].
  destruct (vat (c_path c) tree3) as [hd|]; [|discriminate]. cbn [bind]. destruct (vlist hd) as [hl|]; [|discriminate]. cbn [bind]. destruct (encode_header None [] (mkhobj uuid' nm [] []) hl) as [hl2|]; [|discriminate]. cbn [bind].
  destruct (vput (c_path c) (VList hl2) tree3) as [tree4|] eqn:E4; [|discriminate]. cbn [bind]. rewrite <- (@vat_apart _ _ _ _ _ K2 E4).
  repeat match goal with |- bind ?x _ = _ -> _ => destruct x; try discriminate; cbn [bind] | |- (let '(_, _) := ?p in _) = _ -> _ => destruct p end; try discriminate.
  intros H. injection H as _ _ _ _ ->. reflexivity.
Qed.

Section R.
Variable os : platform.
Variable alnum : N -> bool.
Variable valid : list N -> bool.
Variable lower : list N -> list N.
Variable auto : bool.
Variable version : list N.
Variable src : folder.
Variable other_dec : list N -> list N -> res (list N * folder * list (list N * list (child (list N * folder)))).
Variable other_enc : info folder -> res (option val * list written).
Hypothesis Hver : Forall scalar version.
Theorem container_same c uuid name data xs : placed os alnum valid lower auto version src other_dec other_enc (Item c uuid name false data xs) -> In c container_classes -> In (c_name c) form_containers ->
  exists own ks, real_dec os alnum valid auto version src other_dec (c_name c) uuid = Ok (name, own, ks) /\ container_read c version own = vat [0; 1; 1]%nat (VList data).
Proof.
  intros H Hc Hn. inversion H as [c0 uuid0 name0 locs comment data0 hdr Hc0| |c0 uuid0 name0 locs comment data0 hdr a b count gs more rest xs0 Hc0 Hnm Hat Hf Ed Hl Hto Hid Hls Hdf Hpl|c0 uuid0 name0 data0 own fs Hc0]; subst.
  - exfalso. pose proof (@lists_not c c Hc0 (or_introl Hc)) as E. rewrite str_eqb_refl in E. discriminate.
  - pose proof (@container_in c Hc) as Hcl.
    assert (K : exists os', Forall2 (models src) xs os' /\ Forall2 (made os alnum valid src) xs os').
    { clear - Hpl Hver. induction xs as [|x xs IHx]; [exists []; split; constructor|]. destruct (item_handled Hver (Hpl x (or_introl eq_refl))) as (o & A & _ & C). destruct IHx as (os' & A2 & B2); [intros y Hy; apply Hpl; right; exact Hy|].
      exists (o :: os'). split; constructor; assumption. }
    destruct K as (os' & Hm & Hmd). destruct (groups_listed Hls Hto Hmd Hdf) as (kss & K1 & K2 & _ & K4).
    set (idx0 := EncodeLoopMain.group (map (@kid_of folder written) os')).
    assert (Hi0 : forall t, Permutation (of_type idx0 t) (entries t os')). { intros t. unfold idx0. rewrite of_group, sel_entries. apply Permutation_refl. }
    assert (Hcar : carried c (VStr (version_of version c)) (list_val a b count gs more :: rest) (container_decode auto (inner_of os alnum valid src)) (container_fill lower idx0) kss).
    { apply container_carried; [apply inner_texts|exact Hc|exact Hl| |exact K2|rewrite container_version by exact Hc; exact Hid]. apply K4. intros t _. rewrite <- (entries_made t Hmd). apply Hi0. }
    destruct Hnm as (Hnd & _ & Hv & Hne).
    destruct (C58_object_restored os alnum valid c [] (version_of version c) _ _ _ kss src uuid name locs comment _ hdr None [] Hcl Hnd Hat Hf Hcar Hv (@class_version c version Hcl Hver) (or_introl (conj eq_refl (or_introl eq_refl)))) as (own & D & _ & B).
    destruct (B own [] (fun _ _ => eq_refl) eq_refl (fun _ _ => eq_refl)) as (out' & E & _).
    exists own, kss. split.
    + unfold obj_decode in D. pose proof Hf as (bs & Hf1 & Hb). rewrite (brace_read_bytes _ _ _ _ _ Hb Hf1) in D. cbn [bind] in D. destruct (@pick_container c _ Hc (oa_format Hat)) as [P1 P2].
      unfold real_dec. rewrite (@has_class c Hcl), (read_data Hf). cbn [bind]. rewrite P1, P2, D. reflexivity.
    + rewrite container_version in E by exact Hc. exact (@encode_container _ _ _ _ _ _ _ _ _ _ _ _ _ Hc Hn E).
  - exfalso. apply Hc0. apply in_map. apply container_in. exact Hc.
Qed.
End R.
