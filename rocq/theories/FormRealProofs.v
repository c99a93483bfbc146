(** Forms among the objects of a container. *)
From Coq Require Import String.
From Verif Require Import PyBase PyInt PyText Utf Brace Spec_Brace JsonText JsonTextProofs JsonObj Header Pipeline Spec_Stage ObjCode Spec_Obj Payload MetaObj Spec_MetaObj MetaObjBase Classes Spec_Container EncodeLoop Types Include Spec_Include IncludeMain Tree Real Spec_Real UpdateDictProofs
  Form Spec_FormObj FormObjMain FormReal Spec_FormReal Classes MetaObj.
Set Implicit Arguments.
Open Scope list_scope.
Open Scope N_scope.

Definition fclass_eqb (a b : fclass) : bool := str_eqb (f_name a) (f_name b) && match f_root a, f_root b with RForm, RForm | RForm0, RForm0 | RForm1, RForm1 => true | _, _ => false end.
Lemma fclass_eqb_spec a b : fclass_eqb a b = true -> a = b.
Proof. destruct a as [n r], b as [m q]. unfold fclass_eqb. cbn [f_name f_root]. intros H. apply andb_true_iff in H. destruct H as [H1 H2]. apply str_eqb_spec in H1. destruct r, q; try discriminate; congruence. Qed.
Lemma kind_found c : form_kind c -> form_of (f_name c) = Some c /\ ~ In (f_name c) (map c_name classes) /\ ~ In 47 (f_name c).
Proof.
  intros (s & Hin & E).
  assert (K : forallb (fun e : string * froot => match form_of (u (fst e)) with Some c => fclass_eqb c (mkfclass (u (fst e)) (snd e)) | None => false end && negb (existsb (str_eqb (u (fst e))) (map c_name classes)) && negb (existsb (N.eqb 47) (u (fst e)))) kinds_of_forms = true) by (vm_compute; reflexivity).
  rewrite forallb_forall in K. specialize (K _ Hin). cbn [fst snd] in K. rewrite <- E in K. apply andb_true_iff in K. destruct K as [K K3]. apply andb_true_iff in K. destruct K as [K1 K2]. split; [|split].
  - destruct (form_of (f_name c)) as [d|]; [|discriminate]. apply fclass_eqb_spec in K1. rewrite K1. destruct c; reflexivity.
  - intros Hi. apply negb_true_iff in K2. assert (existsb (str_eqb (f_name c)) (map c_name classes) = true) by (apply existsb_exists; exists (f_name c); split; [exact Hi|apply str_eqb_refl]). congruence.
  - intros Hi. apply negb_true_iff in K3. assert (existsb (N.eqb 47) (f_name c) = true) by (apply existsb_exists; exists 47; split; [exact Hi|reflexivity]). congruence.
Qed.

Section F.
Variable os : platform.
Variable valid : list N -> bool.
Variable repr : val -> list N.
Variable left : ekind -> val -> jval.
Variable auto : bool.
Variable old_dec : nat -> val -> res (val * jval).
Variable old_enc : nat -> jval -> val -> res val.

Lemma info_back_get d h k : k <> k_info Form.m_obj -> dget k (info_back d h) = dget k h.
Proof. intros H. unfold info_back. destruct (dget (k_info Form.m_obj) (rev d)) as [[]|]; try reflexivity; apply dget_dset_other; congruence. Qed.
(** what a build read in the folder *)
Lemma form_reads c options pid parent own out out' b : form_encode os repr auto old_enc c options pid parent own out = Ok (Some (out', b)) ->
  real_rd (f_name c) own = Some (b_name b, b_uuid b).
Proof.
  unfold form_encode, real_rd. destruct (json_read own (dotted (f_name c) x_idjson)) as [ji|e]; [|destruct e; discriminate]. destruct (json_read own (dotted (f_name c) x_json)) as [jh|e]; [|destruct e; discriminate].
  destruct ji as [| | | | |di]; try discriminate. cbn [bind]. destruct jh as [| | | | |dh]; try discriminate. cbn [bind]. destruct (str_field s_uuid (header_of di)) as [uuid|]; [|discriminate]. cbn [bind].
  assert (En : str_field s_name (dset s_uuid (VStr uuid) (info_back dh (header_of dh))) = str_field s_name (header_of dh)).
  { unfold str_field, field. rewrite dget_dset_other by discriminate. rewrite info_back_get by discriminate. reflexivity. }
  rewrite En. set (hh := dset s_uuid (VStr uuid) (info_back dh (header_of dh))). clearbody hh.
  destruct (field s_header hh) as [tree|]; [|discriminate]. cbn [bind]. destruct (root_path (f_root c) tree) as [root|]; [|discriminate]. cbn [bind]. destruct (form_version root tree); [|discriminate]. cbn [bind].
  destruct (str_field s_name (header_of dh)) as [name|]; [|discriminate]. cbn [bind].
  repeat match goal with |- bind ?x _ = _ -> _ => destruct x; try discriminate; cbn [bind] | |- (let '(_, _) := ?p in _) = _ -> _ => destruct p end; try discriminate.
  intros H. injection H as _ <-. reflexivity.
Qed.
End F.

Section R.
Variable os : platform.
Variable alnum : N -> bool.
Variable valid : list N -> bool.
Variable lower : list N -> list N.
Variable repr : val -> list N.
Variable left : ekind -> val -> jval.
Variable auto : bool.
Variable old_dec : nat -> val -> res (val * jval).
Variable old_enc : nat -> jval -> val -> res val.
Variable cont : list N -> option (list N).
Variable version : list N.
Variable src : folder.
Hypothesis Hr : forall v, Forall scalar (concat (leaves v)) -> Forall scalar (repr v).
Theorem in_place_placed x : in_place os alnum valid lower left auto old_dec old_enc cont version src x ->
  placed os alnum valid lower auto version src (forms_dec os valid repr left auto old_dec cont src) (forms_enc os repr auto old_enc cont) x.
Proof.
  induction 1 as [c uuid name locs comment data hdr Hc Hnm Hat Hf|c uuid name locs comment data hdr Hc Hnm Hat Sd|c uuid name locs comment data hdr a b count gs more rest xs Hc Hnm Hat Hf Ed Hl Hto Hid Hls Hdf Hpl IH|c uuid name locs comment data hdr Hk Hnm Hat].
  - eapply placed_simple; eassumption.
  - eapply placed_inner; eassumption.
  - eapply placed_container; eassumption.
  - destruct (kind_found Hk) as (K1 & K2 & K3). pose proof Hnm as (_ & _ & Hv & Hne).
    destruct (@form_core os valid repr left auto old_dec old_enc Hr c [] (cont uuid) src uuid name locs comment data hdr None [] Hat Hv (or_introl (conj eq_refl (or_introl eq_refl)))) as (own & D & _ & B).
    destruct (B own [] (fun _ _ => eq_refl) eq_refl eq_refl eq_refl) as (out' & E & S0 & S1 & S2 & _).
    eapply placed_other with (own := own) (fs := map (fun n => (n, dget n out')) (files_of_form src uuid)).
    + exact K2.
    + exact K3.
    + cbn [class_of_form numbers c_ext c_parts c_late map app part_num]. constructor; [intros [H|[]]; vm_compute in H; discriminate|constructor; [intros []|constructor]].
    + exact Hnm.
    + unfold forms_dec. cbn [class_of_form c_name]. rewrite K1, D. reflexivity.
    + exact (@form_reads os repr auto old_enc c None [] (cont uuid) own [] _ _ E).
    + unfold forms_enc. cbn [class_of_form c_name i_type i_uuid i_data]. rewrite K1, E. cbn [b_uuid b_files]. destruct uuid; [congruence|reflexivity].
    + rewrite map_map. cbn [fst]. rewrite map_id. reflexivity.
    + apply Forall_forall. intros e He. apply in_map_iff in He. destruct He as (n & <- & He). cbn [fst snd]. unfold files_of_form in He. destruct He as [<-|He]; [exact S0|].
      unfold here in He. cbn [flat_map] in He. apply in_app_or in He. destruct He as [He|He]; [|rewrite app_nil_r in He]; (destruct (dget (dotted uuid (u _)) src) eqn:Ed; [|destruct He]); destruct He as [<-|[]]; assumption.
Qed.
End R.
