(** C40: the module text inside a managed form.  Model: FormCode.v; specification: Spec_Form.v. *)
From Coq Require Import String.
From Verif Require Import PyBase PyInt Brace Header FormCode Spec_Form FormProofs.
Open Scope list_scope.
Open Scope N_scope.

(** A form read from a brace file and written again without edits is restored exactly, when its
    code field is a quoted string. *)
Theorem C40_form_restored : forall p raw, place p -> quoted raw ->
  exists code, decode_form (p raw) = Ok (code, p code_mark) /\ encode_form code (p code_mark) = Ok (p raw).
Proof.
  intros p raw Hp Hq. exists (undouble (str_decode raw)). unfold decode_form, encode_form. rewrite getset_place by exact Hp. split; [reflexivity|].
  rewrite getset_place by exact Hp. rewrite quoted_restored by exact Hq. reflexivity.
Qed.
Print Assumptions C40_form_restored.

(** Any text put in as the module comes back exactly when the built form is unpacked again, and
    nothing else in the form changes. *)
Theorem C40_code_restored : forall p code raw, place p ->
  exists raw', encode_form code (p raw) = Ok (p raw') /\ quoted raw' /\ decode_form (p raw') = Ok (code, p code_mark).
Proof.
  intros p code raw Hp. exists (str_encode (double code)). unfold decode_form, encode_form. rewrite !getset_place by exact Hp. split; [reflexivity|]. split; [apply quoted_encode|].
  cbn [bind]. rewrite str_decode_encode, undouble_double. reflexivity.
Qed.
Print Assumptions C40_code_restored.

(** Whatever form is unpacked: either the text was found at one of the two places, or the form is
    left unchanged, the code is empty and the build gives the form back. *)
Theorem C40_no_other_change : forall form code form', decode_form form = Ok (code, form') ->
  (exists p raw, place p /\ form = p raw /\ form' = p code_mark) \/
  (form' = form /\ code = [] /\ forall code', encode_form code' form' = Ok form).
Proof.
  intros form code form' H. unfold decode_form in H. destruct (getset_form_code code_mark form) as [[raw f]|] eqn:E; [|discriminate]. cbn [bind] in H. injection H as <- <-.
  destruct (getset_inv _ _ _ _ E) as [(p & Hp & E1 & E2)|(E1 & E2 & Hall)].
  - left. exists p, raw. auto.
  - right. split; [exact E1|]. split; [rewrite E2; reflexivity|]. intros code'. rewrite E1. unfold encode_form. rewrite Hall. reflexivity.
Qed.
Print Assumptions C40_no_other_change.

(** A code field that is not a quoted string is not restored. *)
Theorem C40_unquoted_refuted : forall p raw, place p -> ~ quoted raw -> (forall a b, p a = p b -> a = b) ->
  exists code form', decode_form (p raw) = Ok (code, form') /\ encode_form code form' <> Ok (p raw).
Proof.
  intros p raw Hp Hq Hinj. exists (undouble (str_decode raw)), (p code_mark). unfold decode_form, encode_form. rewrite !getset_place by exact Hp. split; [reflexivity|]. intros H.
  assert (E : str_encode (double (undouble (str_decode raw))) = raw) by (apply Hinj; congruence). apply Hq. rewrite <- E. apply quoted_encode.
Qed.
Print Assumptions C40_unquoted_refuted.

(** A form whose last list (or the form itself) is empty cannot be unpacked, but it is built: the
    module text is silently left out. *)
Theorem C40_empty_form_refuted : forall ctx code, ~ first_kind (nest ctx []) -> nth_error (nest ctx []) 0 <> Some VNone ->
  decode_form (nest ctx []) = Err IndexError /\ encode_form code (nest ctx []) = Ok (nest ctx []).
Proof.
  intros ctx code Hk Hn.
  assert (E : forall new, getset_form_code new (nest ctx []) = Err IndexError).
  { intros new. destruct (nest ctx []) as [|f0 rest] eqn:En; [reflexivity|].
    rewrite getset_later.
    - rewrite <- En. rewrite on_last_empty. reflexivity.
    - intros ->. apply Hn. reflexivity.
    - destruct (first_kindb f0) eqn:Ef; [|reflexivity]. exfalso. apply Hk. apply first_kind_spec. exact Ef. }
  unfold decode_form, encode_form. rewrite !E. split; reflexivity.
Qed.
Print Assumptions C40_empty_form_refuted.
Example ex_empty : ~ first_kind (nest [[VStr t0]; [VStr t1]] []) /\ nth_error (nest [[VStr t0]; [VStr t1]] []) 0 <> Some VNone.
Proof. split; [|discriminate]. intros H. apply (first_kind_spec (VStr t0)) in H. discriminate. Qed.

(** Examples *)
Definition ex_form (x : list N) : list val := [VList [VStr t4; VList []; VStr x; VStr t0]; VStr t1].
Example ex_place : place ex_form. Proof. apply (place_first t4 (VList []) [VStr t0] [VStr t1]). left. reflexivity. Qed.
Definition ex_text : list N := Eval vm_compute in u "a = ""x"";"%string.
Definition ex_raw : list N := Eval vm_compute in u """a = """"x"""";"""%string.
Example ex_quoted : quoted ex_raw.
Proof. exists (double ex_text). split; [reflexivity|apply paired_double]. Qed.
Example ex_run : decode_form (ex_form ex_raw) = Ok (ex_text, ex_form code_mark). Proof. reflexivity. Qed.
Definition ex_form2 (x : list N) : list val :=
  nest [[VStr t0]; [VStr t1; VStr t1]] (VStr t22 :: [VStr t0; VStr t0] ++ [VStr x; VStr t0; VStr t0; VStr t0; VStr t0; VStr t0; VStr t0; VStr t0]).
Example ex_place2 : place ex_form2.
Proof.
  apply (place_last [[VStr t0]; [VStr t1; VStr t1]] t22 [VStr t0; VStr t0]); [left; reflexivity|cbn; lia|discriminate|].
  intros s H. apply (first_kind_spec (VStr t0)) in H. discriminate.
Qed.
Example ex_run2 : decode_form (ex_form2 ex_raw) = Ok (ex_text, ex_form2 code_mark). Proof. reflexivity. Qed.
Example ex_inj : forall a b, ex_form a = ex_form b -> a = b. Proof. intros a b H. injection H as ->. reflexivity. Qed.
