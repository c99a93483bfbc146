(** Whole objects (MetaObj.v, Classes.v): the theorems. *)
From Coq Require Import String.
From Verif Require Import PyBase PyInt PyText Utf Cp1251 Brace Spec_Brace BraceMore JsonText JsonTextProofs Header Spec_Misc Pipeline Spec_Stage ObjCode Spec_Obj ObjCodeMain Payload Spec_Payload PayloadProofs B64 PyB64
  MetaObj Spec_MetaObj MetaObjBase MetaObjGood MetaObjMain Classes ClassesProofs.
From Verif Require Import Props_Brace UpdateDictProofs CanonCheck.
From Verif Require Props_Misc Props_Stage Props_Obj Props_Payload.
Open Scope list_scope.
Open Scope N_scope.

(** The names of the objects in the container: without a prefix option, the name; with the option given both
    times, for an own object at the top level, prefix and name. *)
Definition built_as (prefix : list N) (options : option (list N)) (pid : list N) (hdr : list val) : Prop :=
  (prefix = [] /\ (options = None \/ options = Some [])) \/ (options = Some prefix /\ Props_Misc.top_level pid /\ Props_Misc.own hdr).

(** An object of any class, whatever files of it there are, is written to a folder of its own; if the build
    finds there what was written, it writes the same files with the same content and no others, gives its
    parent the same header tree, and lists exactly these files. *)
Theorem C58_object_restored : forall os alnum valid c prefix version X (includes : val -> res (val * X)) fill x (src : folder) uuid name locs comment data hdr options pid,
  In c classes -> nodot name -> object_at os alnum c src uuid (prefix ++ name) locs comment data hdr -> in_file os src uuid data ->
  carried c (VStr version) data includes fill x -> valid uuid = true -> Forall scalar version -> built_as prefix options pid hdr ->
  exists own, obj_decode os alnum valid c prefix version includes src uuid = Ok (uuid, name, own, x) /\
    (forall n, ~ uses c name n -> dget n own = None) /\
    forall (srcs out : folder), (forall n, uses c name n -> dget n srcs = dget n own) ->
      dget uuid out = None -> (forall n, In n (numbers c) -> dget (dotted uuid n) out = None) ->
      exists out', obj_encode os alnum true c options version pid fill srcs out = Ok (Some (out', mkbuilt uuid name (object_files true c uuid src) (VList data))) /\
        (forall n, In n (uuid :: map (dotted uuid) (numbers c)) -> same_entry (dget n src) (dget n out')) /\
        (forall n, ~ In n (object_files true c uuid src) -> dget n out' = dget n out).
Proof.
  intros os alnum valid c prefix version X includes fill x src uuid name locs comment data hdr options pid Hc Hn Hat Hfile Hcar Hval Hver Hopt.
  destruct Hfile as (bs & Hf & Hb). pose proof (brace_scal _ _ _ Hb) as Sd.
  destruct (@object_core os alnum valid true c prefix (VStr version) version X includes fill x src uuid name locs comment data hdr options pid) as (own & D & F & B); try assumption; try reflexivity.
  - apply all_classes_ok; assumption.
  - intros _. exists bs. auto.
  - apply (proj1 (scal_str _)). exact Hver.
  - exists own. split; [unfold obj_decode; rewrite (brace_read_bytes _ _ _ _ _ Hb Hf); cbn [bind]; exact D|]. split; [exact F|]. intros srcs out Hs Ou On.
    destruct (B srcs out Hs (fun _ => Ou) On) as (out' & E & S1 & S2 & S3). exists out'. split; [exact E|]. split; [|exact S3]. intros n [<-|Hin]; [apply S1; reflexivity|apply S2; exact Hin].
Qed.
Print Assumptions C58_object_restored.

(** Most classes include no other objects: nothing else is asked of them. *)
Lemma simple_ids : forall c, In c simple_classes -> c_ids c = [].
Proof. assert (H : forallb (fun c => match c_ids c with [] => true | _ => false end) simple_classes = true) by reflexivity. rewrite forallb_forall in H. intros c Hc. specialize (H c Hc). destruct (c_ids c); congruence. Qed.
Lemma inner_ids : forall c, In c inner_classes -> c_ids c = [].
Proof. assert (H : forallb (fun c => match c_ids c with [] => true | _ => false end) inner_classes = true) by reflexivity. rewrite forallb_forall in H. intros c Hc. specialize (H c Hc). destruct (c_ids c); congruence. Qed.
Lemma carried_alone c v data : c_ids c = [] -> carried c v data (fun t => Ok (t, tt)) (@Ok val) tt.
Proof. intros H h t _ Ht. exists t. split; [reflexivity|]. split; [reflexivity|]. split; [exact Ht|]. split; [|reflexivity]. left. unfold ids_of. rewrite H. destruct v as [|s|]; try reflexivity. destruct (starts s_803 s); reflexivity. Qed.
Theorem C58_single_object_restored : forall os alnum valid c prefix version (src : folder) uuid name locs comment data hdr options pid,
  In c simple_classes -> nodot name -> object_at os alnum c src uuid (prefix ++ name) locs comment data hdr -> in_file os src uuid data ->
  valid uuid = true -> Forall scalar version -> built_as prefix options pid hdr ->
  exists own, obj_decode os alnum valid c prefix version (fun t => Ok (t, tt)) src uuid = Ok (uuid, name, own, tt) /\
    (forall n, ~ uses c name n -> dget n own = None) /\
    forall (srcs out : folder), (forall n, uses c name n -> dget n srcs = dget n own) ->
      dget uuid out = None -> (forall n, In n (numbers c) -> dget (dotted uuid n) out = None) ->
      exists out', obj_encode os alnum true c options version pid (@Ok val) srcs out = Ok (Some (out', mkbuilt uuid name (object_files true c uuid src) (VList data))) /\
        (forall n, In n (uuid :: map (dotted uuid) (numbers c)) -> same_entry (dget n src) (dget n out')) /\
        (forall n, ~ In n (object_files true c uuid src) -> dget n out' = dget n out).
Proof.
  intros os alnum valid c prefix version src uuid name locs comment data hdr options pid Hc Hn Hat Hfile Hval Hver Hopt.
  eapply C58_object_restored; try eassumption; [apply in_or_app; left; exact Hc|]. apply carried_alone. apply simple_ids. exact Hc.
Qed.
Print Assumptions C58_single_object_restored.

(** A command has no file for its header tree: it stands in the file of its parent.  Its folder gives the
    parent the same tree, and its module the same file. *)
Theorem C58_inner_object_restored : forall os alnum valid c prefix version (src : folder) uuid name locs comment data hdr options pid,
  In c inner_classes -> nodot name -> object_at os alnum c src uuid (prefix ++ name) locs comment data hdr -> scal (VList data) ->
  valid uuid = true -> built_as prefix options pid hdr ->
  exists own, inner_decode os alnum valid c prefix src (VList data) = Ok (uuid, name, own, tt) /\
    (forall n, ~ uses c name n -> dget n own = None) /\
    forall (srcs out : folder), (forall n, uses c name n -> dget n srcs = dget n own) -> (forall n, In n (numbers c) -> dget (dotted uuid n) out = None) ->
      exists out', obj_encode os alnum false c options version pid (@Ok val) srcs out = Ok (Some (out', mkbuilt uuid name (object_files false c uuid src) (VList data))) /\
        (forall n, In n (map (dotted uuid) (numbers c)) -> same_entry (dget n src) (dget n out')) /\
        (forall n, ~ In n (object_files false c uuid src) -> dget n out' = dget n out).
Proof.
  intros os alnum valid c prefix version src uuid name locs comment data hdr options pid Hc Hn Hat Sd Hval Hopt. unfold inner_decode.
  destruct (@object_core os alnum valid false c prefix VNone version unit (fun t => Ok (t, tt)) (@Ok val) tt src uuid name locs comment data hdr options pid) as (own & D & F & B); try assumption; try discriminate.
  - apply all_classes_ok; [apply in_or_app; right; apply in_or_app; right; exact Hc|exact Hn].
  - apply carried_alone. apply inner_ids. exact Hc.
  - constructor.
  - unfold ids_of. rewrite (inner_ids c Hc). destruct (starts s_803 version); reflexivity.
  - exists own. split; [exact D|]. split; [exact F|]. intros srcs out Hs On. destruct (B srcs out Hs) as (out' & E & _ & S2 & S3); [discriminate|exact On|]. exists out'. auto.
Qed.
Print Assumptions C58_inner_object_restored.

(** A common command with its help text and its module, extracted and built with a prefix. *)
Definition cc_class : class := Eval vm_compute in nth 3 simple_classes data_processor.
Definition cc_uuid : list N := Eval vm_compute in u "b2f1c8a0-1111-2222-3333-444455556666"%string.
Definition cc_name : list N := Eval vm_compute in u "Печать"%string.
Definition cc_prefix : list N := Eval vm_compute in u "пр_"%string.
Definition cc_comment : list N := Eval vm_compute in u "note"%string.
Definition cc_locs : list (list N * list N) := Eval vm_compute in [(u "ru", u "Печать"); (u "en", u "Print")]%string.
Definition cc_hdr : list val := Eval vm_compute in
  [VStr (u "3"); VList [VStr (u "1"); VStr (u "0"); VStr cc_uuid]; Spec_Misc.quoted (cc_prefix ++ cc_name); locale_list cc_locs []; Spec_Misc.quoted cc_comment; VStr (u "0")]%string.
Definition cc_data : list val := Eval vm_compute in
  let z := VStr (u "0"%string) in [VList [VStr (u "1"); VList [VStr (u "4"); VList [z; z; VList [z; z; z; z; z; z; z; z; z; VList cc_hdr]]]; z]]%string.
Definition cc_bytes : list N := Eval vm_compute in snd (brace_file_write Posix cc_data []).
Definition cc_src : folder :=
  [(cc_uuid, TFile cc_bytes); (dotted cc_uuid [49], TFile Props_Payload.ex_help_bytes);
   (dotted cc_uuid [50], TDir [(s_info, TFile Props_Stage.ex_brace); (s_text, TFile Props_Obj.om_mod1)])].
Example C58_hypotheses_met : forall alnum, In cc_class simple_classes /\ nodot cc_name /\
  object_at Posix alnum cc_class cc_src cc_uuid (cc_prefix ++ cc_name) cc_locs cc_comment cc_data cc_hdr /\ in_file Posix cc_src cc_uuid cc_data /\
  built_as cc_prefix (Some cc_prefix) (u "root"%string) cc_hdr.
Proof.
  intros alnum. split; [vm_compute; tauto|]. split; [vm_compute; intuition discriminate|]. split; [|split].
  - constructor.
    + reflexivity.
    + reflexivity.
    + vm_compute. do 6 eexists. reflexivity.
    + apply nodup_strs. reflexivity.
    + intros p [<-|[]]. exists (Some Props_Payload.ex_content). apply Props_Payload.C54_hypotheses_met.
    + intros m n [E|[]]. assert (n = [50]) as -> by congruence. change (module_entry Posix false (Some (TDir [(s_info, TFile Props_Stage.ex_brace); (s_text, TFile Props_Obj.om_mod1)]))).
      pose proof Props_Obj.C51_hypotheses_met as (_ & _ & H). apply (H (u "obj"%string) [48]). left. reflexivity.
  - exists cc_bytes. split; [reflexivity|]. brace_solve.
  - right. split; [reflexivity|]. split; [vm_compute; intuition discriminate|]. right. reflexivity.
Qed.

(** ** What does not hold *)
(** A picture whose comment ends with the word json is extracted to the file that then gets the header: the
    build puts the header in the place of the picture. *)
Definition pj_class : class := Eval vm_compute in nth 5 simple_classes data_processor.
Definition pj_comment : list N := Eval vm_compute in u "was json"%string.
Definition pj_hdr : list val := Eval vm_compute in
  [VStr (u "3"); VList [VStr (u "1"); VStr (u "0"); VStr cc_uuid]; Spec_Misc.quoted cc_name; locale_list cc_locs []; Spec_Misc.quoted pj_comment]%string.
Definition pj_data : list val := Eval vm_compute in [VList [VStr (u "1"); VList [VStr (u "4"); VList pj_hdr]]]%string.
Definition pj_bytes : list N := Eval vm_compute in snd (brace_file_write Posix pj_data []).
Definition pj_src : folder := [(cc_uuid, TFile pj_bytes); (dotted cc_uuid s_zero, TFile Props_Payload.ex_pic_bytes)].
Theorem C58_json_picture_refuted :
  In pj_class simple_classes /\ picture_entry Posix (dget (dotted cc_uuid s_zero) pj_src) (Some Props_Payload.ex_content) /\ in_file Posix pj_src cc_uuid pj_data /\
  exists own out' b hb, obj_decode Posix Props_Payload.ascii_alnum (fun _ => true) pj_class [] s_803 (fun t => Ok (t, tt)) pj_src cc_uuid = Ok (cc_uuid, cc_name, own, tt) /\
    obj_encode Posix Props_Payload.ascii_alnum true pj_class None s_803 [] (@Ok val) own [] = Ok (Some (out', b)) /\
    dget (dotted (c_name pj_class) s_json) own = Some (TFile hb) /\ hb <> Props_Payload.ex_content /\
    dget (dotted cc_uuid s_zero) out' = Some (TFile (snd (brace_file_write Posix [VList [VStr [52]; VStr [49]; VList [VList [VStr (s_data ++ b64_encode hb)]; VStr [48]]]] []))).
Proof.
  split; [vm_compute; tauto|]. split; [apply Props_Payload.C56_hypotheses_met|]. split; [exists pj_bytes; split; [reflexivity|brace_solve]|].
  do 4 eexists. split; [vm_compute; reflexivity|]. split; [vm_compute; reflexivity|]. split; [vm_compute; reflexivity|]. split; [discriminate|vm_compute; reflexivity].
Qed.
Print Assumptions C58_json_picture_refuted.
(** With a prefix, two objects whose names differ by the prefix are given one folder name; the second
    extraction then finds the folder there. *)
Theorem C58_prefix_names_refuted : forall os alnum valid c prefix version X (includes : val -> res (val * X)) fill x (src : folder) uuid1 uuid2 name locs1 locs2 comment1 comment2 data1 data2 hdr1 hdr2,
  In c classes -> nodot name -> starts prefix name = false -> Props_Misc.own hdr1 -> valid uuid1 = true -> valid uuid2 = true -> Forall scalar version ->
  object_at os alnum c src uuid1 (prefix ++ name) locs1 comment1 data1 hdr1 -> in_file os src uuid1 data1 -> carried c (VStr version) data1 includes fill x ->
  object_at os alnum c src uuid2 name locs2 comment2 data2 hdr2 -> in_file os src uuid2 data2 -> carried c (VStr version) data2 includes fill x ->
  exists own1 own2, obj_decode os alnum valid c prefix version includes src uuid1 = Ok (uuid1, name, own1, x) /\
    obj_decode os alnum valid c [] version includes src uuid2 = Ok (uuid2, name, own2, x) /\
    obj_decode os alnum valid c prefix version includes src uuid2 = obj_decode os alnum valid c [] version includes src uuid2.
Proof.
  intros os alnum valid c prefix version X includes fill x src uuid1 uuid2 name locs1 locs2 comment1 comment2 data1 data2 hdr1 hdr2 Hc Hn Hs Ho V1 V2 Hver A1 F1 C1 A2 F2 C2.
  destruct (C58_object_restored os alnum valid c prefix version X includes fill x src uuid1 name locs1 comment1 data1 hdr1 (Some prefix) [48]) as (own1 & D1 & _); try assumption.
  { right. split; [reflexivity|]. split; [intros [E|[]]; discriminate|exact Ho]. }
  destruct (C58_object_restored os alnum valid c [] version X includes fill x src uuid2 name locs2 comment2 data2 hdr2 None [48]) as (own2 & D2 & _); try assumption.
  { left. split; [reflexivity|left; reflexivity]. }
  exists own1, own2. split; [exact D1|]. split; [exact D2|].
  destruct F2 as (bs & Hf & Hb). unfold obj_decode. rewrite (brace_read_bytes _ _ _ _ _ Hb Hf). cbn [bind]. unfold obj_decode_data. rewrite (oa_header A2). cbn [bind vlist].
  destruct (oa_fields A2) as (h0 & a & b & r1 & more & tl & ->).
  replace (decode_header valid prefix (h0 :: VList (a :: b :: VStr uuid2 :: r1) :: Spec_Misc.quoted name :: locale_list locs2 more :: Spec_Misc.quoted comment2 :: tl) true)
    with (decode_header valid [] (h0 :: VList (a :: b :: VStr uuid2 :: r1) :: Spec_Misc.quoted name :: locale_list locs2 more :: Spec_Misc.quoted comment2 :: tl) true); [reflexivity|].
  unfold decode_header. cbn [vnth nth_error bind vlist vstr Spec_Misc.quoted]. rewrite V2. cbn [negb].
  change (str_decode (34 :: name ++ [34])) with (str_decode (str_encode name)). rewrite HeaderProofs.str_decode_encode, Hs, andb_false_r. reflexivity.
Qed.
Print Assumptions C58_prefix_names_refuted.
