(** C66-C68: the elements, properties, commands and parameters of managed forms.
    Model: FormElem.v; specification: Spec_FormElem.v. *)
From Coq Require Import String Permutation Lia.
From Verif Require Import PyBase PyInt Brace Header CalcOffset Spec_Misc Container MetaObjBase UpdateDictProofs Payload MetaObj FormElem Spec_FormElem FormElemList FormElemMain FormElemDescr FormElemPlain FormElemCheck.
Open Scope list_scope.
Open Scope N_scope.

(** Extraction writes the tree of the elements, an entry for every element under its path, and the properties, commands
    and parameters by name; a build from these sources gives the form back exactly. *)
Theorem C66_form_elements_restored : forall parent raw props cmds pars es, parent <> Some [] -> form_is raw props cmds pars es ->
  exists raw' fe, elems_decode parent raw = Ok (raw', fe) /\ fe_tree fe = Some (map item_of es) /\
    Permutation (map fst (fe_data fe)) (map fst (all_paths es)) /\
    (forall path e, In (path, e) (all_paths es) -> exists ed, dget path (fe_data fe) = Some ed /\ entry_of props cmds e ed) /\
    map pr_name (match fe_props fe with Some l => l | None => [] end) = map sp_name props /\
    map cm_name (match fe_commands fe with Some l => l | None => [] end) = map sc_name cmds /\
    map pa_name (match fe_params fe with Some l => l | None => [] end) = pars /\
    elems_encode parent fe raw' = Ok raw.
Proof. exact form_through. Qed.
Print Assumptions C66_form_elements_restored.

(** A build from sources that were edited, or taken from another form, makes the form they describe: the elements of the
    tree, each with the values of its entry, its number of children and its children; elements to be shared are linked to
    the properties and commands of this form by name; elements to be renamed get their new name; properties and columns
    are counted and their parent type is the one of this object. *)
Theorem C67_form_elements_built : forall parent fe raw' raw props cmds es, described parent fe raw' raw props cmds es -> elems_encode parent fe raw' = Ok raw.
Proof. exact form_described. Qed.
Print Assumptions C67_form_elements_built.

(** A form none of whose parts was taken out is built as it is, whatever the file of elements holds. *)
Theorem C68_unread_form_kept : forall parent fe raw, left_whole raw -> elems_encode parent fe raw = Ok raw.
Proof. exact form_left. Qed.
Print Assumptions C68_unread_form_kept.

(** ** A form with two properties, one with columns, a command, a parameter, a group to be renamed with a field in it, a
    table with a column and a button to be shared *)
Definition s_ (s : string) : val := VStr (u s).
Definition z_ : val := number 0.
Definition fill (n : nat) : list val := repeat (VStr [46]) n.
Definition ex_parent : list N := Eval vm_compute in u "cf4abea6-37b2-11d4-940f-008048da11f9"%string.
Definition ex_uuid : list N := Eval vm_compute in u "ffffffff"%string.
Definition n_list : list N := Eval vm_compute in u "Список"%string.
Definition n_obj : list N := Eval vm_compute in u "Объект"%string.
Definition n_code : list N := Eval vm_compute in u "Код"%string.
Definition n_print : list N := Eval vm_compute in u "Печать"%string.
Definition n_key : list N := Eval vm_compute in u "Ключ"%string.
Definition n_head : list N := Eval vm_compute in u "includr_Шапка"%string.
Definition n_body : list N := Eval vm_compute in u "Тело"%string.
Definition n_bcode : list N := Eval vm_compute in u "ТелоКод"%string.
Definition n_but : list N := Eval vm_compute in u "include_Кнопка"%string.
Definition n_none : list N := Eval vm_compute in u "Номер"%string.
Definition ex_props : list sprop := [(n_list, [49], [(n_code, [49]); (n_none, [50])]); (n_obj, [50], [])].
Definition ex_ref : val := VList [VStr [49]; VStr ex_uuid].
Definition ex_cmds : list scmd := [(n_print, [49], ex_ref)].
Definition ex_field (x : string) (n : list N) (link : val) : felem :=
  FElem FField n ([s_ x; z_; z_; number 1; VStr [46]; z_; VStr [46]; quoted n] ++ fill 4 ++ [link; VStr [46]]) [] [].
Definition ex_group (n : list N) (kids : list felem) : felem := FElem FGroup n ([VStr s_22; z_; z_; z_; z_; VStr [46]; quoted n] ++ fill 14) kids (fill 2).
Definition ex_table (n : list N) (link : val) (kids : list felem) : felem :=
  FElem FTable n ([VStr s_55; z_; z_; z_; z_; quoted n] ++ fill 5 ++ [link] ++ fill 42 ++ [z_] ++ fill 6) kids (fill 37).
Definition ex_button (n : list N) (link : val) : felem := FElem FButton n ([z_; z_; z_; z_; VStr [46]; quoted n; VStr [46]; VStr [46]; link] ++ fill 3) [] [].
Definition to_obj : val := VList [number 1; VList [VStr [50]]].
Definition to_code : val := VList [number 2; VList [VStr [49]]; VList [VStr [49]]].
Definition ex_elems : list felem :=
  [ex_group n_head [ex_field "1" n_code to_obj]; ex_table n_body (VList [number 1; VList [VStr [49]]]) [ex_field "2" n_bcode to_code]; ex_button n_but ex_ref].
Definition ex_pattern : val := VList [VStr s_hash; VList [VStr s_hash; VStr ex_parent]].
Definition ex_col (n i : list N) : val := VList [z_; VStr i; z_; quoted n; z_].
Definition ex_prop (n i : list N) (pat : val) (cols : list val) : val := VList ([z_; VList [VStr i]; z_; quoted n; z_; pat] ++ fill 7 ++ [number (length cols)] ++ cols ++ [z_]).
Definition ex_rest : list val :=
  [VList [z_; number 2; ex_prop n_list [49] (VStr []) [ex_col n_code [49]; ex_col n_none [50]]; ex_prop n_obj [50] ex_pattern []];
   VList [z_; number 1; VList [z_; quoted n_key]]; VList [z_; number 1; VList [z_; ex_ref; quoted n_print; z_]]; VStr [46]].
Definition ex_front : list val := [z_] ++ fill 17 ++ [z_] ++ fill 2 ++ [z_].
Definition ex_raw : list val := [z_; VList (ex_front ++ number 3 :: pairs_of ex_elems ++ fill 4); VStr [46]] ++ ex_rest.

Ltac at_place n := match goal with |- stands _ _ ?l => let l' := eval vm_compute in l in change l with l'; refine (@stands_at _ _ _ n _ _ _); vm_compute; reflexivity end.
Ltac on_front := match goal with |- exists x data, ?f = x :: data /\ _ => let l' := eval vm_compute in f in change f with l'; eexists _, _; split; [reflexivity|apply lo_ok; vm_compute; reflexivity] end.
(** a boolean test for [inside] *)
Lemma starts_app p : forall s b, s = p ++ b -> starts p s = true.
Proof. intros s b ->. induction p as [|x p IH]; [reflexivity|]. cbn [app starts]. rewrite N.eqb_refl. exact IH. Qed.
Fixpoint inside_b (p s : list N) : bool := starts p s || match s with [] => false | _ :: r => inside_b p r end.
Lemma no_inside_b p s a b : inside_b p s = false -> s = a ++ p ++ b -> False.
Proof.
  revert s. induction a as [|x a IH]; intros s H E.
  - cbn [app] in E. destruct s; cbn [inside_b] in H; apply Bool.orb_false_iff in H as [H _]; rewrite (starts_app _ _ b E) in H; discriminate.
  - subst s. cbn [app inside_b] in H. apply Bool.orb_false_iff in H as [_ H]. exact (IH _ H eq_refl).
Qed.
Lemma not_in p s : inside_b p s = false -> ~ inside p s.
Proof. intros H (a & b & E). exact (no_inside_b _ _ _ _ H E). Qed.

Lemma ex_head_ok : elem_ok ex_props ex_cmds n_head (ex_group n_head [ex_field "1" n_code to_obj]).
Proof.
  constructor; cbn [fe_kind fe_name fe_front fe_kids fe_back ex_group].
  - at_place 5%nat.
  - intros at_ E. injection E as <-. on_front.
  - discriminate.
  - cbn [size_ok]. eexists. split; [match goal with |- counted _ ?l _ => let l' := eval vm_compute in l in change l with l' end; refine (@counted_at _ _ _ 23%nat _ _); vm_compute; reflexivity|]. intros _. vm_compute. discriminate.
  - discriminate.
  - discriminate.
  - right. split; [discriminate|]. exists (skipn 8 n_head). split; [reflexivity|]. apply not_in. vm_compute. reflexivity.
Qed.
Definition p_field : list N := Eval vm_compute in u "include_Шапка/Код"%string.
Definition p_bfield : list N := Eval vm_compute in u "Тело/ТелоКод"%string.
Lemma ex_field_ok path x n link : renaming_ok FField n -> link_fine link -> (shared path -> exists m, m <> [] /\ links_to ex_props link m) -> elem_ok ex_props ex_cmds path (ex_field x n link).
Proof.
  intros Hr Hl Hs. constructor; cbn [fe_kind fe_name fe_front fe_kids fe_back ex_field].
  - refine (@stands_at _ _ _ 6%nat _ _ _); vm_compute; reflexivity.
  - discriminate.
  - intros _. split; reflexivity.
  - exact Logic.I.
  - intros at_ E. injection E as <-. exists link. split; [|split; [exact Hl|intros H; right; exact (Hs H)]]. refine (@stands_at _ _ _ 11%nat _ _ _); vm_compute; reflexivity.
  - discriminate.
  - exact Hr.
Qed.
Lemma ex_body_ok : elem_ok ex_props ex_cmds n_body (ex_table n_body (VList [number 1; VList [VStr [49]]]) [ex_field "2" n_bcode to_code]).
Proof.
  constructor; cbn [fe_kind fe_name fe_front fe_kids fe_back ex_table].
  - at_place 4%nat.
  - intros at_ E. injection E as <-. on_front.
  - discriminate.
  - cbn [size_ok]. eexists. split; [match goal with |- counted _ ?l _ => let l' := eval vm_compute in l in change l with l' end; refine (@counted_at _ _ _ 63%nat _ _); vm_compute; reflexivity|]. intros _. vm_compute. reflexivity.
  - intros at_ E. injection E as <-. exists (VList [number 1; VList [VStr [49]]]). split; [at_place 10%nat|]. split.
    + right. exists 1%nat, [VList [VStr [49]]]. split; [reflexivity|]. split; [cbn; lia|]. constructor; [exists [49], []; reflexivity|constructor].
    + intros [H|H]; exfalso; revert H; apply not_in; vm_compute; reflexivity.
  - discriminate.
  - left. apply not_in. vm_compute. reflexivity.
Qed.
Lemma ex_but_ok : elem_ok ex_props ex_cmds n_but (ex_button n_but ex_ref).
Proof.
  constructor; cbn [fe_kind fe_name fe_front fe_kids fe_back ex_button].
  - at_place 4%nat.
  - discriminate.
  - intros _. split; reflexivity.
  - exact Logic.I.
  - discriminate.
  - intros at_ E. injection E as <-. exists ex_ref. split; [at_place 7%nat|]. split; [right; exists [49], 1%Z, [VStr ex_uuid]; split; reflexivity|]. intros _. right. right. exists [49], 1%Z, [VStr ex_uuid].
    split; [reflexivity|]. split; [reflexivity|]. split; [discriminate|]. intros c [<-|[]] _. split; [discriminate|reflexivity].
  - left. apply not_in. vm_compute. reflexivity.
Qed.
Lemma ex_form : form_is ex_raw ex_props ex_cmds [n_key] ex_elems.
Proof.
  constructor.
  - exists z_, ex_front, (fill 4), (VStr [46] :: ex_rest), z_, (tl ex_front). split; [reflexivity|]. split; [reflexivity|]. apply lo_ok. vm_compute. reflexivity.
  - split.
    + change (all_paths ex_elems) with [(n_head, ex_group n_head [ex_field "1" n_code to_obj]); (p_field, ex_field "1" n_code to_obj);
        (n_body, ex_table n_body (VList [number 1; VList [VStr [49]]]) [ex_field "2" n_bcode to_code]); (p_bfield, ex_field "2" n_bcode to_code); (n_but, ex_button n_but ex_ref)].
      constructor; [exact ex_head_ok|]. constructor; [|constructor; [exact ex_body_ok|constructor; [|constructor; [exact ex_but_ok|constructor]]]]; cbn [fst snd]; apply ex_field_ok.
      * left. apply not_in. vm_compute. reflexivity.
      * right. exists 1%nat, [VList [VStr [50]]]. split; [reflexivity|]. split; [cbn; lia|]. constructor; [exists [50], []; reflexivity|constructor].
      * intros _. exists n_obj. split; [discriminate|]. exact (@lt_prop ex_props (n_obj, [50], []) [] (or_intror (or_introl eq_refl))).
      * left. apply not_in. vm_compute. reflexivity.
      * right. exists 2%nat, [VList [VStr [49]]; VList [VStr [49]]]. split; [reflexivity|]. split; [cbn; lia|]. constructor; [exists [49], []; reflexivity|constructor; [exists [49], []; reflexivity|constructor]].
      * intros [H|H]; exfalso; revert H; apply not_in; vm_compute; reflexivity.
    + apply nodup_strs. vm_compute. reflexivity.
  - exists [ex_prop n_list [49] (VStr []) [ex_col n_code [49]; ex_col n_none [50]]; ex_prop n_obj [50] ex_pattern []]. split; [exists z_, []; reflexivity|].
    constructor; [|constructor; [|constructor]].
    + exists z_, [], z_, z_, (VStr []), (fill 7), [ex_col n_code [49]; ex_col n_none [50]], [z_]. split; [reflexivity|]. split; [reflexivity|]. split; [exact Logic.I|]. constructor; [|constructor; [|constructor]]; exists z_, z_, [z_]; reflexivity.
    + exists z_, [], z_, z_, ex_pattern, (fill 7), [], [z_]. split; [reflexivity|]. split; [reflexivity|]. split; [|constructor]. cbn. intros _. exists ex_parent, []. split; [reflexivity|discriminate].
  - exists [VList [z_; ex_ref; quoted n_print; z_]]. split; [exists z_, []; reflexivity|]. constructor; [|constructor]. exists z_, [VStr ex_uuid], [z_]. split; reflexivity.
  - exists [VList [z_; quoted n_key]]. split; [exists z_, []; reflexivity|]. constructor; [|constructor]. exists z_, []. reflexivity.
  - split; [apply nodup_strs; vm_compute; reflexivity|]. split; [constructor; [apply nodup_strs; vm_compute; reflexivity|constructor; [constructor|constructor]]|apply nodup_strs; vm_compute; reflexivity].
  - split; [apply nodup_strs; vm_compute; reflexivity|]. split; [constructor; [discriminate|constructor; [discriminate|constructor]]|apply nodup_strs; vm_compute; reflexivity].
Qed.
Example C66_example : exists raw' fe, elems_decode (Some ex_parent) ex_raw = Ok (raw', fe) /\ elems_encode (Some ex_parent) fe raw' = Ok ex_raw.
Proof. destruct (C66_form_elements_restored (Some ex_parent) _ _ _ _ _ ltac:(discriminate) ex_form) as (raw' & fe & H1 & _ & _ & _ & _ & _ & _ & H2). exists raw', fe. split; assumption. Qed.

(** The same form from sources of another form: the group has another name there, and the field and the button are linked
    to other ids *)
Definition n_other : list N := Eval vm_compute in u "includr_Низ"%string.
Definition old_field : felem := ex_field "1" n_code (VList [number 1; VList [VStr [55]; VStr [56]]]).
Definition ex_fe : felems := mkelems
  (Some [mkpar n_key (VList [z_; quoted n_key])])
  (Some [mkprop n_list (VStr [49]) (VList ([z_; VList [VStr [49]]; z_; quoted n_list; z_; VStr []] ++ fill 7 ++ [VStr cols_mark; z_])) (Some [mkcol n_code (VStr [49]) (ex_col n_code [49]); mkcol n_none (VStr [50]) (ex_col n_none [50])]);
         mkprop n_obj (VStr [50]) (ex_prop n_obj [50] (VList [VStr s_hash; VList [VStr s_hash; VStr parent_mark]]) []) None])
  (Some [mkcmd n_print (VStr [49]) (VList [z_; ex_ref; quoted n_print; z_])])
  (Some (map item_of ex_elems))
  [(n_but, mkedata (fe_front (ex_button n_but (VList [VStr [57]; VStr [46]]))) None (Some n_print));
   (n_head, mkedata (bare (with_front (fe_front (ex_group n_other [])) (ex_group n_head [ex_field "1" n_code to_obj]))) None None);
   (p_field, mkedata (fe_front old_field) (Some n_obj) None);
   (n_body, mkedata (bare (ex_table n_body (VList [number 1; VList [VStr [49]]]) [ex_field "2" n_bcode to_code])) (Some n_list) None);
   (p_bfield, mkedata (fe_front (ex_field "2" n_bcode to_code)) None None)].
Definition ex_src : list val := [z_; VList (ex_front ++ VStr kids_mark :: fill 4); VStr [46]; VList [z_; VStr kids_mark]; VList [z_; VStr kids_mark]; VList [z_; VStr kids_mark]; VStr [46]].
Lemma replaced_at counters old v x (l : list val) n : nth_error l n = Some old -> lo_b counters (firstn (S n) l) = true -> replaced counters old v (x :: l) (x :: firstn n l ++ v :: skipn (S n) l).
Proof.
  intros Hv Hl. exists x, (firstn n l), (skipn (S n) l). rewrite (firstn_next _ _ Hv). split; [rewrite firstn_skipn; reflexivity|]. split; [apply lo_ok, Hl|rewrite <- app_assoc; reflexivity].
Qed.
Lemma ex_described : described (Some ex_parent) ex_fe ex_src ex_raw ex_props ex_cmds ex_elems.
Proof.
  constructor.
  - reflexivity.
  - exists z_, ex_front, (fill 4), (VStr [46] :: ex_rest), (skipn 2 ex_src), z_, (tl ex_front). split; [reflexivity|]. split; [reflexivity|]. split; [reflexivity|]. apply lo_ok. vm_compute. reflexivity.
  - intros [|[|[|[|[|[|[|i]]]]]]] H1 H3 H4 H5; try congruence; reflexivity.
  - cbn [ex_src ex_raw ex_rest nth_error app]. refine (@sm_items _ _ _ _ z_ [] ex_props (match fe_props ex_fe with Some l => l | None => [] end) [ex_prop n_list [49] (VStr []) [ex_col n_code [49]; ex_col n_none [50]]; ex_prop n_obj [50] ex_pattern []] _ _ _ _); try reflexivity.
    intros [|[|[|i]]] x y v Hx Hy Hv; cbn [ex_props nth_error] in Hx; try discriminate; injection Hx as <-; injection Hy as <-; injection Hv as <-.
    + split; [reflexivity|]. split; [reflexivity|]. exists z_, (VList [VStr [49]]), z_, (quoted n_list), z_, (VStr []), (VStr []), (fill 7), (VStr cols_mark), [z_]. eexists. split; [reflexivity|]. split; [reflexivity|]. split; [reflexivity|]. split; [reflexivity|]. split; [reflexivity|]. left. split; [exact Logic.I|reflexivity].
    + split; [reflexivity|]. split; [reflexivity|]. eexists z_, (VList [VStr [50]]), z_, (quoted n_obj), z_, _, ex_pattern, (fill 7), (number 0), [z_], []. split; [reflexivity|]. split; [reflexivity|]. split; [reflexivity|]. split; [reflexivity|]. split; [reflexivity|].
      right. exists (VStr s_hash), [], [], ex_parent. split; [reflexivity|]. split; reflexivity.
  - cbn [ex_src ex_raw ex_rest nth_error app]. refine (@sm_items _ _ _ _ z_ [] ex_cmds (match fe_commands ex_fe with Some l => l | None => [] end) [VList [z_; ex_ref; quoted n_print; z_]] _ _ _ _); try reflexivity.
    intros [|[|i]] x y v Hx Hy Hv; cbn [ex_cmds nth_error] in Hx; try discriminate; injection Hx as <-; injection Hy as <-; injection Hv as <-.
    split; [reflexivity|]. split; [reflexivity|]. exists z_, [quoted n_print; z_]. reflexivity.
  - exists [tt]. cbn [ex_src ex_raw ex_rest nth_error app]. refine (@sm_items _ _ _ _ z_ [] [tt] (match fe_params ex_fe with Some l => l | None => [] end) [VList [z_; quoted n_key]] _ _ _ _); try reflexivity.
    intros [|[|i]] x y v Hx Hy Hv; try discriminate; injection Hy as <-; injection Hv as <-. reflexivity.
  - destruct (fi_names ex_form) as (H1 & H2 & H3). split; [exact H1|split; assumption].
  - intros path e Hin. destruct (fi_elems ex_form) as [He _]. rewrite Forall_forall in He. specialize (He _ Hin). destruct He as [_ H1 H2 _ _ _ _]. split; assumption.
  - intros path e [H|[H|[H|[H|[H|[]]]]]]; injection H as <- <-.
    + eexists. split; [vm_compute; reflexivity|]. exists (fe_front (ex_group n_other [])), (fe_front (ex_group n_head [])), (fe_front (ex_group n_head [])).
      split; [reflexivity|]. split; [intros _; exists (quoted n_other); exact (@replaced_at (name_at FGroup) (quoted n_other) (quoted n_head) (VStr s_22) (tl (fe_front (ex_group n_other []))) 5 eq_refl eq_refl)|].
      split; [intros H; exfalso; apply H; exists [], (skipn 8 n_head); reflexivity|]. split; [intros _; reflexivity|]. split; intros _; reflexivity.
    + eexists. split; [vm_compute; reflexivity|]. exists (fe_front old_field), (fe_front old_field), (fe_front (ex_field "1" n_code to_obj)).
      split; [reflexivity|]. split; [intros H; exfalso; revert H; apply not_in; vm_compute; reflexivity|]. split; [reflexivity|]. split.
      * intros _. cbn [prop_at fe_kind ex_field]. eexists (VList [number 1; VList [VStr [55]; VStr [56]]]), to_obj. split.
        -- exact (@replaced_at [(3, 1); (1, 1); (7, 0)]%Z (VList [number 1; VList [VStr [55]; VStr [56]]]) to_obj (s_ "1") (tl (fe_front old_field)) 11 eq_refl eq_refl).
        -- exact (@rl_prop ex_props (n_obj, [50], []) (VList [VStr [55]; VStr [56]]) [] (or_intror (or_introl eq_refl)) ltac:(discriminate)).
      * split; [intros _; reflexivity|]. intros H. exfalso. apply H. left. exists [], (skipn 8 p_field). reflexivity.
    + eexists. split; [vm_compute; reflexivity|]. set (f := fe_front (ex_table n_body (VList [number 1; VList [VStr [49]]]) [])). exists f, f, f. split; [reflexivity|]. split; [intros H; exfalso; revert H; apply not_in; vm_compute; reflexivity|]. split; [reflexivity|].
      split; [intros [H|H]; exfalso; revert H; apply not_in; vm_compute; reflexivity|]. split; reflexivity.
    + eexists. split; [vm_compute; reflexivity|]. exists (fe_front (ex_field "2" n_bcode to_code)), (fe_front (ex_field "2" n_bcode to_code)), (fe_front (ex_field "2" n_bcode to_code)). split; [reflexivity|]. split; [intros H; exfalso; revert H; apply not_in; vm_compute; reflexivity|]. split; [reflexivity|].
      split; [intros [H|H]; exfalso; revert H; apply not_in; vm_compute; reflexivity|]. split; reflexivity.
    + eexists. split; [vm_compute; reflexivity|]. set (f := fe_front (ex_button n_but (VList [VStr [57]; VStr [46]]))). exists f, f, f. split; [reflexivity|]. split; [intros H; exfalso; revert H; apply not_in; vm_compute; reflexivity|]. split; [reflexivity|]. split; [reflexivity|]. split.
      * intros _. cbn [command_at fe_kind ex_button]. exists (VList [VStr [57]; VStr [46]]), ex_ref. split.
        -- exact (@replaced_at [(3, 1); (5, 0)]%Z (VList [VStr [57]; VStr [46]]) ex_ref z_ (tl f) 7 eq_refl eq_refl).
        -- exact (@rc_cmd ex_cmds (n_print, [49], ex_ref) (VStr [57]) [VStr [46]] (VStr [49]) [VStr ex_uuid] (or_introl eq_refl) ltac:(discriminate) eq_refl).
      * intros H. exfalso. apply H. left. exists [], (skipn 8 n_but). reflexivity.
Qed.
Example C67_example : elems_encode (Some ex_parent) ex_fe ex_src = Ok ex_raw.
Proof. exact (C67_form_elements_built _ _ _ _ _ _ _ ex_described). Qed.

(** A form with a list of elements that cannot be read *)
Definition ex_bad : list val := [z_; VList (ex_front ++ [number 1; VStr [46]; VStr [46]])].
Example C68_example : left_whole ex_bad /\ elems_decode None ex_bad = Err IndexError /\ elems_encode None ex_fe ex_bad = Ok ex_bad.
Proof.
  assert (H : left_whole ex_bad).
  { split; [exact Logic.I|]. split; [exact Logic.I|]. split; [exact Logic.I|]. exists z_, z_, (tl ex_front), (number 1), [VStr [46]; VStr [46]], []. split; [reflexivity|]. split; [apply lo_ok; vm_compute; reflexivity|discriminate]. }
  split; [exact H|]. split; [vm_compute; reflexivity|exact (C68_unread_form_kept None ex_fe ex_bad H)].
Qed.

(** ** What does not hold *)
(** An error in the list of properties is swallowed after the columns of an earlier property were taken out: they are
    lost. *)
Definition lost_raw : list val := [z_; VList (ex_front ++ [number 0]); VStr [46]; VList [z_; number 2; ex_prop n_list [49] (VStr []) [ex_col n_code [49]]; VList [z_]]].
Theorem C66_columns_kept_refuted : exists raw raw' fe raw'', elems_decode None raw = Ok (raw', fe) /\ fe_props fe = None /\ elems_encode None fe raw' = Ok raw'' /\ raw'' <> raw.
Proof. exists lost_raw. eexists _, _, _. split; [vm_compute; reflexivity|]. split; [reflexivity|]. split; [vm_compute; reflexivity|]. vm_compute. discriminate. Qed.
(** A group with includr_ inside its name: its children are not found by a build. *)
Definition n_mid : list N := Eval vm_compute in u "a_includr_b"%string.
Definition mid_raw : list val := [z_; VList (ex_front ++ number 1 :: pairs_of [ex_group n_mid [ex_field "1" n_code (VStr [])]])].
Theorem C66_any_name_refuted : exists raw raw' fe, elems_decode None raw = Ok (raw', fe) /\ elems_encode None fe raw' = Err ExtExc.
Proof. exists mid_raw. eexists _, _. split; vm_compute; reflexivity. Qed.
(** A form whose list of elements cannot be found is extracted (the error is swallowed), and cannot be built again. *)
Theorem C68_any_form_refuted : exists raw, elems_decode None raw = Err IndexError /\ forall fe, elems_encode None fe raw = Err IndexError.
Proof. exists [z_; VList [z_]]. split; [vm_compute; reflexivity|]. intros fe. reflexivity. Qed.
