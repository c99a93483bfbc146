(** The classes do with the objects what Tree.v asks of them. *)
From Coq Require Import String Permutation.
From Verif Require Import PyBase PyInt PyText Utf Brace Spec_Brace BraceMore JsonText JsonTextProofs JsonObj Header Pipeline Spec_Stage ObjCode Spec_Obj Payload MetaObj Spec_MetaObj MetaObjBase MetaObjGood MetaObjMain ClassesProofs Props_MetaObj
  Container ContainerProofs Spec_Container EncodeLoop EncodeLoopProofs Spec_Encode EncodeLoopMain Types Include Spec_Include IncludeProofs IncludeMain Tree Spec_Tree TreeProofs TreeBuild Classes MetaObj Real Spec_Real.
Set Implicit Arguments.
Open Scope list_scope.
Open Scope N_scope.

(** ** The class of an object *)
Definition apart_classes (c d : class) : bool :=
  negb (str_eqb (c_name c) (c_name d)) || match c_format c, c_format d with FAbove n, FUpTo m => (m =? n)%Z | _, _ => false end.
Fixpoint pairsb (l : list class) : bool := match l with [] => true | c :: r => forallb (apart_classes c) r && pairsb r end.
Lemma apart_no c d t tree : apart_classes c d = true -> str_eqb t (c_name c) && format_ok (c_format c) tree = true -> str_eqb t (c_name d) && format_ok (c_format d) tree = true -> False.
Proof.
  unfold apart_classes. rewrite orb_true_iff, !andb_true_iff. intros H [H1 H2] [H3 H4]. apply str_eqb_spec in H1, H3. destruct H as [H|H].
  - apply negb_true_iff in H. rewrite <- H1, <- H3, str_eqb_refl in H. discriminate.
  - destruct (c_format c); try discriminate. destruct (c_format d); try discriminate. apply Z.eqb_eq in H. subst. cbn [format_ok] in H2, H4. destruct (vat [0; 1; 0]%nat tree) as [[|s|]|]; try discriminate.
    destruct (int_of_str s) as [z|]; [|discriminate]. apply Z.ltb_lt in H2. apply Z.leb_le in H4. lia.
Qed.
Lemma pairs_app a b : pairsb (a ++ b) = true -> pairsb a = true /\ pairsb b = true /\ forall c d, In c a -> In d b -> apart_classes c d = true.
Proof.
  induction a as [|x a IH]; cbn [app pairsb]; [intros H; split; [reflexivity|split; [exact H|intros c d []]]|]. rewrite !andb_true_iff. intros [H1 H2]. destruct (IH H2) as (A & B & C). rewrite forallb_forall in H1.
  split; [split; [apply forallb_forall; intros; apply H1; apply in_or_app; auto|exact A]|]. split; [exact B|]. intros c d [<-|Hc] Hd; [apply H1; apply in_or_app; auto|auto].
Qed.
Lemma pick_one l c t tree : pairsb l = true -> In c l -> str_eqb t (c_name c) && format_ok (c_format c) tree = true -> pick t tree l = Some c.
Proof.
  unfold pick. induction l as [|x l IH]; [intros _ []|]. cbn [pairsb find]. rewrite andb_true_iff. intros [H1 H2] Hc Hp. destruct Hc as [->|Hc]; [rewrite Hp; reflexivity|].
  destruct (str_eqb t (c_name x) && format_ok (c_format x) tree) eqn:E; [|auto]. exfalso. rewrite forallb_forall in H1. eapply apart_no; [apply H1; exact Hc|exact E|exact Hp].
Qed.
Lemma pick_none l t tree : (forall c, In c l -> str_eqb t (c_name c) && format_ok (c_format c) tree = true -> False) -> pick t tree l = None.
Proof. unfold pick. intros H. destruct (find _ l) as [c|] eqn:E; [|reflexivity]. apply find_some in E. destruct E. exfalso. eapply H; eassumption. Qed.
Lemma classes_pairs : pairsb classes = true. Proof. vm_compute. reflexivity. Qed.
Lemma fits c tree : format_ok (c_format c) tree = true -> str_eqb (c_name c) (c_name c) && format_ok (c_format c) tree = true.
Proof. intros ->. rewrite str_eqb_refl. reflexivity. Qed.
Lemma pick_simple c tree : In c simple_classes -> format_ok (c_format c) tree = true -> pick (c_name c) tree simple_classes = Some c.
Proof. intros Hc Hf. pose proof (pairs_app _ _ classes_pairs) as (A & _). apply pick_one; [exact A|exact Hc|apply fits; exact Hf]. Qed.
Lemma pick_container c tree : In c container_classes -> format_ok (c_format c) tree = true -> pick (c_name c) tree simple_classes = None /\ pick (c_name c) tree container_classes = Some c.
Proof.
  intros Hc Hf. pose proof (pairs_app _ _ classes_pairs) as (A & B & C). pose proof (pairs_app _ _ B) as (A2 & _). split; [|apply pick_one; [exact A2|exact Hc|apply fits; exact Hf]].
  apply pick_none. intros d Hd Hp. eapply apart_no; [apply (C d c Hd); apply in_or_app; auto|exact Hp|apply fits; exact Hf].
Qed.
Lemma pick_inner c tree : In c inner_classes -> format_ok (c_format c) tree = true ->
  pick (c_name c) tree simple_classes = None /\ pick (c_name c) tree container_classes = None /\ pick (c_name c) tree inner_classes = Some c.
Proof.
  intros Hc Hf. pose proof (pairs_app _ _ classes_pairs) as (A & B & C). pose proof (pairs_app _ _ B) as (A2 & B2 & C2). split; [|split; [|apply pick_one; [exact B2|exact Hc|apply fits; exact Hf]]].
  - apply pick_none. intros d Hd Hp. eapply apart_no; [apply (C d c Hd); apply in_or_app; auto|exact Hp|apply fits; exact Hf].
  - apply pick_none. intros d Hd Hp. eapply apart_no; [apply (C2 d c Hd); exact Hc|exact Hp|apply fits; exact Hf].
Qed.
Lemma has_class c : In c classes -> existsb (fun d => str_eqb (c_name c) (c_name d)) classes = true.
Proof. intros H. apply existsb_exists. exists c. split; [exact H|apply str_eqb_refl]. Qed.
Lemma no_slash c : In c classes -> ~ In 47 (c_name c).
Proof. assert (K : forallb (fun c => forallb (fun x => negb (x =? 47)) (c_name c)) classes = true) by (vm_compute; reflexivity). rewrite forallb_forall in K. intros Hc Hi. specialize (K c Hc). rewrite forallb_forall in K. specialize (K 47 Hi). discriminate. Qed.
Lemma simple_in c : In c simple_classes -> In c classes. Proof. intros. apply in_or_app. auto. Qed.
Lemma container_in c : In c container_classes -> In c classes. Proof. intros. apply in_or_app. right. apply in_or_app. auto. Qed.
Lemma inner_in c : In c inner_classes -> In c classes. Proof. intros. apply in_or_app. right. apply in_or_app. auto. Qed.
Lemma lists_not c d : In c simple_classes -> In d container_classes \/ In d inner_classes -> str_eqb (c_name d) (c_name c) = false.
Proof.
  assert (K : forallb (fun c => forallb (fun d => negb (str_eqb (c_name d) (c_name c))) (container_classes ++ inner_classes)) simple_classes = true) by (vm_compute; reflexivity).
  rewrite forallb_forall in K. intros Hc Hd. specialize (K c Hc). rewrite forallb_forall in K. apply negb_true_iff. apply K. apply in_or_app. exact Hd.
Qed.
Lemma container_version c version : In c container_classes -> version_of version c = version.
Proof. assert (K : forallb (fun c => match c_format c with FIs _ => false | _ => true end) container_classes = true) by reflexivity. rewrite forallb_forall in K. intros Hc. specialize (K c Hc). unfold version_of. destruct (c_format c); congruence. Qed.
Lemma class_version c version : In c classes -> Forall scalar version -> Forall scalar (version_of version c).
Proof.
  assert (K : forallb (fun c => match c_format c with FIs v => forallb scalarb v | _ => true end) classes = true) by (vm_compute; reflexivity). rewrite forallb_forall in K. intros Hc Hv. specialize (K c Hc). unfold version_of.
  destruct (c_format c); try exact Hv. apply scalars_by. exact K.
Qed.

Section R.
Variable os : platform.
Variable alnum : N -> bool.
Variable valid : list N -> bool.
Variable lower : list N -> list N.
Variable auto : bool.
Variable version : list N.
Variable src : folder.
Variable other_dec : list N -> list N -> res (list N * folder * list (list N * list (child (list N * folder)))).
Variable other_enc : info folder -> res (option val * list written).
Hypothesis Hver : Forall scalar version.
Notation inner := (inner_of os alnum valid src).
Notation dec := (real_dec os alnum valid auto version src other_dec).
Notation enc := (real_enc os alnum lower version other_enc).

Lemma decode_uuid prefix hl b o hl' : decode_header valid prefix hl b = Ok (o, hl') -> Forall scal hl -> Forall scalar (h_uuid o).
Proof.
  unfold decode_header. intros H Hs. unfold vnth in H. destruct (nth_error hl 1) as [x|] eqn:E1; [|discriminate]. cbn [bind] in H. destruct x as [|s|l]; try discriminate. cbn [vlist bind] in H.
  destruct (nth_error l 2) as [y|] eqn:E2; [|discriminate]. cbn [bind] in H. destruct y as [|s|]; try discriminate. cbn [vstr bind] in H.
  assert (Ss : Forall scalar s). { apply (proj2 (scal_str s)). eapply scal_list_in; [|eapply nth_error_In; exact E2]. rewrite Forall_forall in Hs. apply Hs. eapply nth_error_In. exact E1. }
  revert H. repeat match goal with |- context [match ?x with _ => _ end] => destruct x; try discriminate | |- bind ?x _ = _ -> _ => destruct x; try discriminate; cbn [bind] end;
    intros H; injection H as <- _; exact Ss.
Qed.
Lemma decoded_uuid (X : Type) c prefix v (includes : val -> res (val * X)) data uuid name own x :
  obj_decode_data os alnum valid c prefix v includes src data = Ok (uuid, name, own, x) -> scal data -> Forall scalar uuid.
Proof.
  unfold obj_decode_data. destruct (format_ok (c_format c) data); [|discriminate]. cbn [bind]. destruct (vat (c_path c) data) as [hd|] eqn:Ev; [|discriminate]. cbn [bind].
  destruct hd as [| |hl]; try discriminate. cbn [vlist bind]. destruct (decode_header valid prefix hl true) as [[hb hl']|] eqn:Ed; [|discriminate]. cbn [bind]. intros H So.
  pose proof (scal_vat _ _ _ So Ev) as Sh. apply scal_forall in Sh. pose proof (decode_uuid _ _ Ed Sh) as Su.
  revert H. repeat match goal with |- context [match ?x with _ => _ end] => destruct x; try discriminate | |- bind ?x _ = _ -> _ => destruct x; try discriminate; cbn [bind] end; intros H; injection H as <- _; exact Su.
Qed.
Lemma inner_texts : inner_scal _ inner.
Proof.
  intros t f o uu y Hf Ho So. unfold inner_of in Hf. destruct (find (fun c : class => str_eqb t (c_name c)) inner_classes) as [c|].
  - injection Hf as <-. unfold inner_decode in Ho. destruct (obj_decode_data os alnum valid c [] VNone (fun t0 => Ok (t0, tt)) src o) as [[[[u0 n0] w0] x0]|] eqn:E; [|discriminate]. cbn [bind] in Ho. injection Ho as <- _. eapply decoded_uuid; eassumption.
  - destruct (existsb (str_eqb t) no_class); [discriminate|]. injection Hf as <-. discriminate.
Qed.

(** ** What a build reads *)
Lemma encode_reads store c v fill own out out' b : obj_encode os alnum store c None v [] fill own out = Ok (Some (out', b)) ->
  real_rd (c_name c) own = Some (b_name b, b_uuid b) /\ exists tree, source_tree (c_name c) own = Ok tree /\ format_ok (c_format c) tree = true.
Proof.
  unfold obj_encode, real_rd, source_tree. destruct (json_read own (dotted (c_name c) x_idjson)) as [ji|e]; [|destruct e; discriminate]. destruct (json_read own (dotted (c_name c) x_json)) as [jh|e]; [|destruct e; discriminate].
  destruct ji as [| | | | |di]; try discriminate. cbn [bind]. destruct jh as [| | | | |dh]; try discriminate. cbn [bind]. destruct (str_field s_uuid (header_of di)) as [uuid|]; [|discriminate]. cbn [bind].
  unfold str_field, field at 1. rewrite dget_dset_other by discriminate. fold (field s_header (header_of dh)). destruct (field s_header (header_of dh)) as [tree|]; [|discriminate]. cbn [bind].
  destruct (format_ok (c_format c) tree) eqn:Ef; [|discriminate]. cbn [bind]. destruct (put_ids (ids_of c (VStr v)) (header_of di) tree) as [tree2|]; [|discriminate]. cbn [bind].
  unfold field at 1. rewrite dget_dset_other by discriminate. fold (field s_name (header_of dh)). destruct (v0 <- field s_name (header_of dh) ;; vstr v0) as [name|]; [|discriminate]. cbn [bind].
  intros H. split; [|exists tree; auto].
  revert H. repeat match goal with |- context [match ?x with _ => _ end] => destruct x; try discriminate | |- bind ?x _ = _ -> _ => destruct x; try discriminate; cbn [bind] end; intros H; injection H as _ <-; reflexivity.
Qed.

(** ** The order of the entries does not matter *)
Notation dups_no idx := (forall t, NoDup (map fst (of_type idx t)) /\ NoDup (map (fun e : entry val => lower (fst (snd e))) (of_type idx t))).
Lemma fill_objs_perm (a b : list (entry val)) objs : Permutation a b -> NoDup (map (fun e : entry val => lower (fst (snd e))) a) -> fill_objs lower a objs = fill_objs lower b objs.
Proof. intros HP Hn. induction objs as [|o objs IH]; [reflexivity|]. destruct o as [|s|l]; try reflexivity. cbn [fill_objs]. rewrite (@last_with_perm val lower s a b HP Hn), IH. reflexivity. Qed.
Lemma vfill_slot_perm (a b : tindex val) s : (forall t, Permutation (of_type a t) (of_type b t)) -> dups_no a -> vfill_slot lower a s = vfill_slot lower b s.
Proof.
  intros HP Hn. destruct s as [|s|[|ty [|[|c|] rest]]]; try reflexivity; cbn [vfill_slot].
  - destruct (type_value s) as [v|]; [|reflexivity]. cbv zeta. rewrite (@sort_names_perm _ (of_type a s) (of_type b s)); [reflexivity|apply Hn|apply HP].
  - destruct (int_of_str c) as [n|]; [|reflexivity]. destruct (type_of ty) as [t|]; [|reflexivity]. pose proof (HP t) as Ht. destruct (Hn t) as [_ Hd].
    destruct (of_type a t) as [|e1 l1] eqn:Ea, (of_type b t) as [|e2 l2] eqn:Eb; [reflexivity|apply Permutation_nil in Ht; discriminate|apply Permutation_sym, Permutation_nil in Ht; discriminate|].
    rewrite (@fill_objs_perm _ _ (firstn (Z.to_nat n) rest) Ht Hd). reflexivity.
Qed.
Lemma container_fill_perm (a b : tindex val) tree : (forall t, Permutation (of_type a t) (of_type b t)) -> (a = [] <-> b = []) -> dups_no a -> container_fill lower a tree = container_fill lower b tree.
Proof.
  intros HP He Hn. assert (Hs : forall ss, vfill_slots lower a ss = vfill_slots lower b ss) by (induction ss as [|s ss IH]; [reflexivity|]; cbn [vfill_slots]; rewrite IH, (@vfill_slot_perm a b s HP Hn); reflexivity).
  assert (Hi : forall inc, vfill_include lower a inc = vfill_include lower b inc).
  { intros inc. unfold vfill_include. destruct inc as [| |[|x [|y [|[|c|] rest]]]]; try reflexivity. destruct (int_of_str c); [|reflexivity]. cbv zeta. rewrite Hs. reflexivity. }
  unfold container_fill. destruct a as [|e1 a], b as [|e2 b]; [reflexivity|destruct He as [He _]; discriminate He; reflexivity|destruct He as [_ He]; discriminate He; reflexivity|].
  destruct (vget tree 0) as [inc|]; [|reflexivity]. cbn [bind]. rewrite Hi. reflexivity.
Qed.
Lemma build_one_ext store c f g own : (forall t, f t = g t) -> build_one os alnum version store c f own = build_one os alnum version store c g own.
Proof.
  intros H. unfold build_one. replace (obj_encode os alnum store c None (version_of version c) [] g own []) with (obj_encode os alnum store c None (version_of version c) [] f own []); [reflexivity|].
  unfold obj_encode. destruct (json_read own (dotted (c_name c) x_idjson)) as [ji|]; [|reflexivity]. destruct (json_read own (dotted (c_name c) x_json)) as [jh|]; [|reflexivity].
  destruct ji; try reflexivity. destruct jh; try reflexivity. cbn [bind]. destruct (str_field s_uuid (header_of d)); [|reflexivity]. cbn [bind]. destruct (field s_header _); [|reflexivity]. cbn [bind].
  destruct (if format_ok (c_format c) a0 then Ok tt else Err ExtExc); [|reflexivity]. cbn [bind]. destruct (put_ids _ _ _); [|reflexivity]. cbn [bind]. destruct (str_field s_name _); [|reflexivity]. cbn [bind]. destruct (field s_obj_version _); [|reflexivity]. cbn [bind].
  rewrite H. reflexivity.
Qed.
Lemma enc_order_free i (a b : tindex val) : (forall t, Permutation (of_type a t) (of_type b t)) -> (a = [] <-> b = []) -> dups_no a -> enc i a = enc i b.
Proof.
  intros HP He Hn. unfold real_enc. cbv zeta. destruct (existsb _ classes); [|reflexivity]. destruct (source_tree (i_type i) (i_data i)) as [tree|]; [|reflexivity]. cbn [bind].
  destruct (pick (i_type i) tree simple_classes); [reflexivity|]. destruct (pick (i_type i) tree container_classes) as [c|]; [|reflexivity]. apply build_one_ext. intros t. apply container_fill_perm; assumption.
Qed.

(** ** The lists of an object *)
Notation object := (object folder written).
(** what is known about an object made for an item *)
Record made (x : item) (o : object) : Prop := {
  md_type : o_type o = it_type x; md_uuid : o_uuid o = it_uuid x; md_name : o_name o = it_name x; md_inner : o_inner o = it_inner x; md_data : o_data o = it_val x;
  md_taken : taken inner (it_type x) (it_val x) (snd (child_of o)) }.
Definition types_of (gs : list Spec_Include.group) : list (list N) := flat_map (fun g => match known g with Some t => [t] | None => [] end) gs.
Lemma entries_made t xs (os' : list object) : Forall2 made xs os' -> entries t os' = it_entries t xs.
Proof.
  intros H. induction H as [|x o xs os' Hm Hr IH]; [reflexivity|]. unfold entries, it_entries in *. cbn [filter]. rewrite (md_type Hm). destruct (str_eqb t (it_type x)); [|exact IH].
  cbn [map]. rewrite IH. unfold entry_of. rewrite (md_name Hm), (md_uuid Hm), (md_data Hm). reflexivity.
Qed.
Lemma listed_types gs xs x : listed os alnum valid auto src gs xs -> In x xs -> In (it_type x) (types_of gs).
Proof.
  intros H. induction H as [|g gs xs Hk H IH|g t gs xs Hk Ha H IH|g t os1 gs xs Hk Hne Ht Ho Hau H IH]; intros Hx; [destruct Hx|..]; unfold types_of; cbn [flat_map]; rewrite Hk; cbn [app].
  - apply IH. exact Hx.
  - right. apply IH. exact Hx.
  - apply in_app_or in Hx. destruct Hx as [Hx|Hx]; [left|right; apply IH; exact Hx]. rewrite Forall_forall in Ht. symmetry. apply Ht. exact Hx.
Qed.
Lemma it_entries_none t xs : (forall x, In x xs -> it_type x <> t) -> it_entries t xs = [].
Proof.
  intros H. unfold it_entries. induction xs as [|x xs IH]; [reflexivity|]. cbn [filter]. destruct (str_eqb t (it_type x)) eqn:E; [|apply IH; intros; apply H; right; assumption].
  apply str_eqb_spec in E. exfalso. apply (H x); [left; reflexivity|congruence].
Qed.
Lemma it_entries_all t xs : Forall (fun x => it_type x = t) xs -> it_entries t xs = map (fun x => (it_name x, (it_uuid x, it_val x))) xs.
Proof. intros H. unfold it_entries. induction H as [|x xs Hx H IH]; [reflexivity|]. cbn [filter]. rewrite Hx, str_eqb_refl. cbn [map]. rewrite IH. reflexivity. Qed.
Lemma it_entries_app t a b : it_entries t (a ++ b) = it_entries t a ++ it_entries t b.
Proof. unfold it_entries. rewrite filter_app, map_app. reflexivity. Qed.
Lemma made_tags xs (os' : list object) : Forall2 made xs os' -> map (@o_tag _ _) os' = map it_tag xs.
Proof. intros H. induction H as [|x o xs os' Hm Hr IH]; [reflexivity|]. cbn [map]. rewrite IH. unfold o_tag, it_tag. rewrite (md_type Hm), (md_name Hm). reflexivity. Qed.
Lemma made_distinct xs (os' : list object) : Forall2 made xs os' -> different lower xs -> distinct lower os'.
Proof.
  intros H [D1 D2]. split; [rewrite (made_tags H); exact D1|]. intros t. specialize (D2 t). refine (eq_ind _ (fun l => NoDup l) D2 _ _). clear - H.
  induction H as [|x o xs os' Hm Hr IH]; [reflexivity|]. cbn [filter]. rewrite (md_type Hm). destruct (str_eqb t (it_type x)); [|exact IH]. cbn [map]. rewrite IH, (md_uuid Hm). reflexivity.
Qed.

Lemma groups_listed gs xs : listed os alnum valid auto src gs xs -> forall os' : list object, types_once gs -> Forall2 made xs os' -> different lower xs ->
  exists kss, flat_map (fun g : list N * list (child (list N * folder)) => map (pair (fst g)) (snd g)) kss = map (@child_of _ _) os' /\ NoDup (map fst kss) /\ incl (map fst kss) (types_of gs) /\
    forall idx, (forall t, In t (types_of gs) -> Permutation (of_type idx t) (it_entries t xs)) -> regrouped_all inner lower auto idx gs kss gs.
Proof.
  unfold types_once. fold (types_of gs). intros H. induction H as [|g gs xs Hk H IH|g t gs xs Hk Ha H IH|g t os1 gs xs Hk Hne Ht Ho Hau H IH]; intros os' Hn Hm Hd.
  - inversion Hm; subst. exists []. split; [reflexivity|]. split; [constructor|]. split; [intros ? []|]. intros idx _. constructor.
  - unfold types_of in *. cbn [flat_map] in *. rewrite Hk in *. cbn [app] in *. destruct (IH os' Hn Hm Hd) as (kss & A & B & C & D). exists kss. split; [exact A|]. split; [exact B|]. split; [exact C|].
    intros idx Hi. apply (@ra_cons _ inner lower auto idx g [] g gs kss gs); [constructor; exact Hk|apply D; exact Hi].
  - unfold types_of in *. cbn [flat_map] in *. rewrite Hk in *. cbn [app] in *. apply NoDup_cons_iff in Hn. destruct Hn as [Hnt Hn]. destruct (IH os' Hn Hm Hd) as (kss & A & B & C & D). exists kss.
    split; [exact A|]. split; [exact B|]. split; [intros y Hy; right; apply C; exact Hy|].
    intros idx Hi. apply (@ra_cons _ inner lower auto idx g [] g gs kss gs); [|apply D; intros y Hy; apply Hi; right; exact Hy]. eapply rg_alone; [exact Hk|exact Ha|].
    specialize (Hi t (or_introl eq_refl)). rewrite it_entries_none in Hi; [apply Permutation_sym, Permutation_nil in Hi; exact Hi|]. intros x Hx E. apply Hnt. rewrite <- E. eapply listed_types; eassumption.
  - unfold types_of in *. cbn [flat_map] in *. rewrite Hk in *. cbn [app] in *. apply NoDup_cons_iff in Hn. destruct Hn as [Hnt Hn]. apply Forall2_app_inv_l in Hm. destruct Hm as (oa & ob & Hma & Hmb & ->).
    assert (Hd2 : different lower xs).
    { destruct Hd as [D1 D2]. split; [rewrite map_app in D1; apply nodup_app in D1; apply D1|]. intros t'. specialize (D2 t'). rewrite filter_app, map_app in D2. apply nodup_app in D2. apply D2. }
    destruct (IH ob Hn Hmb Hd2) as (kss & A & B & C & D). exists ((t, map (fun o => snd (child_of o)) oa) :: kss).
    assert (Eoa : map (@child_of folder written) oa = map (pair t) (map (fun o => snd (child_of o)) oa)).
    { rewrite map_map. apply map_ext_in. intros o Hin. unfold child_of. cbn [snd]. f_equal. clear - Hma Ht Hin. induction Hma as [|x o' xs os' Hm Hr IH]; [destruct Hin|]. apply Forall_cons_iff in Ht. destruct Ht. destruct Hin as [<-|Hin]; [rewrite (md_type Hm); assumption|auto]. }
    split; [cbn [flat_map fst snd]; rewrite map_app, A, Eoa; reflexivity|]. split; [cbn [map fst]; constructor; [intros Hin; apply Hnt; apply C; exact Hin|exact B]|].
    split; [intros y [<-|Hy]; [left; reflexivity|right; apply C; exact Hy]|]. intros idx Hi.
    assert (Ex : it_entries t xs = []) by (apply it_entries_none; intros x Hx E; apply Hnt; rewrite <- E; eapply listed_types; eassumption).
    apply (@ra_cons _ inner lower auto idx g [(t, map (fun o => snd (child_of o)) oa)] g gs kss gs).
    + set (es := map (fun x => (it_name x, (it_uuid x, it_val x))) os1 : list (entry val)).
      assert (Hp : Permutation (of_type idx t) es). { specialize (Hi t (or_introl eq_refl)). rewrite it_entries_app, Ex, app_nil_r, (it_entries_all Ht) in Hi. exact Hi. }
      assert (Hgne : g_objs g <> []) by (rewrite Ho; intros E; apply map_eq_nil in E; contradiction).
      assert (Htk : Forall2 (taken inner t) (g_objs g) (map (fun o => snd (child_of o)) oa)).
      { rewrite Ho. clear - Hma Ht. induction Hma as [|x o xs os' Hm Hr IH]; [constructor|]. apply Forall_cons_iff in Ht. destruct Ht as [E Ht]. cbn [map]. constructor; [rewrite <- E; apply (md_taken Hm)|apply IH; exact Ht]. }
      assert (Hef : entries_for lower (g_objs g) (map (fun o => snd (child_of o)) oa) es).
      { split; [|split; [|split]].
        - rewrite Ho. unfold es. clear. induction os1 as [|x l IH]; constructor; [reflexivity|exact IH].
        - unfold es. clear - Hma. induction Hma as [|x o xs os' Hm Hr IH]; [constructor|]. cbn [map]. constructor; [|exact IH]. cbn [fst snd]. unfold child_of. cbn [snd]. destruct (o_inner o); cbn [child_uuid]; rewrite (md_uuid Hm); reflexivity.
        - unfold es. rewrite map_map. cbn [fst snd]. destruct Hd as [_ D2]. specialize (D2 t). rewrite filter_app, map_app in D2. apply NoDup_app_l in D2.
          assert (filter (fun x => str_eqb t (it_type x)) os1 = os1) as <-; [|exact D2]. clear - Ht. induction Ht as [|x l Hx H IH]; [reflexivity|]. cbn [filter]. rewrite Hx, str_eqb_refl, IH. reflexivity.
        - unfold es. rewrite map_map. cbn [fst]. destruct Hd as [D1 _]. rewrite map_app in D1. apply NoDup_app_l in D1.
          assert (E : map it_tag os1 = map (pair t) (map it_name os1)). { rewrite map_map. apply map_ext_in. intros x Hx. unfold it_tag. rewrite Forall_forall in Ht. rewrite (Ht x Hx). reflexivity. }
          rewrite E in D1. apply NoDup_map_inv in D1. exact D1. }
      destruct auto eqn:Eauto.
      * destruct (Hau eq_refl) as (Ha1 & Ha2 & Ha3). assert (Eg : g = mkgroup (g_type g) (str_of_int (Z.of_nat (length (g_objs g)))) (map (fun e : entry val => snd (snd e)) es) []).
        { destruct g as [gt gc go gm]. cbn [g_type g_count g_objs g_more] in *. subst gm gc go. rewrite map_length. unfold es. rewrite map_map. reflexivity. }
        rewrite Eg at 2. eapply rg_sorted; [exact Hk|reflexivity|exact Hgne|exact Htk|exact Hef|exact Hp|apply Permutation_refl|]. unfold es. rewrite map_map. exact Ha1.
      * eapply rg_listed; [exact Hk|reflexivity|exact Hgne|exact Htk|exact Hef|exact Hp].
    + apply D. intros y Hy. specialize (Hi y (or_intror Hy)). rewrite it_entries_app in Hi. rewrite (@it_entries_none y os1) in Hi; [exact Hi|]. intros x Hx E. rewrite Forall_forall in Ht. apply Hnt. rewrite <- (Ht x Hx), E. exact Hy.
Qed.
End R.
