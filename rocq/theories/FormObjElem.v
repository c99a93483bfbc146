(** The elements of a form taken out and put back together with its module. *)
From Coq Require Import String Lia.
From Verif Require Import PyBase PyInt PyText Utf Codecs Brace Spec_Brace BraceMore Spec_Misc JsonText JsonTextProofs JsonObj Header CalcOffset Pipeline Spec_Stage ObjCode Spec_Obj Payload Spec_Payload MetaObj Spec_MetaObj MetaObjBase
  FormCode Spec_Form FormProofs FormElem Spec_FormElem FormElemProofs FormElemMain FormElemPlain FormJson FormJsonGood Form27 Spec_Form27 Form27Proofs Form27Main Form27Json Form27Good Form Spec_FormObj.
Set Implicit Arguments.
Open Scope list_scope.
Open Scope N_scope.

(** ** The third value of the first list does not matter for the elements *)
Lemma nth_set_other {A} i j (x : A) l : i <> j -> nth_error (set_nth i x l) j = nth_error l j.
Proof. revert i j. induction l as [|y l IH]; intros [|i] [|j] H; cbn; try reflexivity; try congruence. apply IH. congruence. Qed.
Lemma nth_set_same {A} i (x : A) l : (i < length l)%nat -> nth_error (set_nth i x l) i = Some x.
Proof. revert i. induction l as [|y l IH]; intros [|i] H; cbn in *; try reflexivity; try lia. apply IH. lia. Qed.
Lemma length_set {A} i (x : A) l : length (set_nth i x l) = length l.
Proof. revert i. induction l as [|y l IH]; intros [|i]; cbn; try reflexivity. f_equal. apply IH. Qed.
Lemma set_swap {A} i j (x y : A) l : i <> j -> set_nth i x (set_nth j y l) = set_nth j y (set_nth i x l).
Proof. revert i j. induction l as [|z l IH]; intros [|i] [|j] H; cbn; try reflexivity; try congruence. f_equal. apply IH. congruence. Qed.
Lemma set_same {A} i (x : A) l : nth_error l i = Some x -> set_nth i x l = l.
Proof. revert i. induction l as [|y l IH]; intros [|i] H; cbn in *; try discriminate; [congruence|]. f_equal. apply IH. exact H. Qed.
Lemma set_set {A} i (x y : A) l : set_nth i x (set_nth i y l) = set_nth i x l.
Proof. revert i. induction l as [|z l IH]; intros [|i]; cbn; try reflexivity. f_equal. apply IH. Qed.
Lemma hvset_set i v l l' : Header.vset i v l = Ok l' -> l' = set_nth i v l /\ (i < length l)%nat.
Proof.
  revert i l'. induction l as [|y l IH]; intros [|i] l' H; cbn in H; try discriminate.
  - injection H as <-. cbn. split; [reflexivity|lia].
  - destruct (Header.vset i v l) as [r|] eqn:E; [|discriminate]. cbn in H. injection H as <-. destruct (IH _ _ E) as [-> L]. cbn. split; [reflexivity|lia].
Qed.
Lemma hvset_ok i v l : (i < length l)%nat -> Header.vset i v l = Ok (set_nth i v l).
Proof. revert i. induction l as [|y l IH]; intros [|i] H; cbn in *; try lia; [reflexivity|]. rewrite IH by lia. reflexivity. Qed.

Lemma nth_ext_opt {A} (l l' : list A) : (forall j, nth_error l j = nth_error l' j) -> l = l'.
Proof.
  revert l'. induction l as [|a l IH]; intros [|b l'] H; [reflexivity|specialize (H 0%nat); discriminate|specialize (H 0%nat); discriminate|]. pose proof (H 0%nat) as H0. cbn in H0. injection H0 as ->. f_equal. apply IH. intros j. exact (H (S j)).
Qed.
Lemma nth_error_skipn {A} n (l : list A) j : nth_error (skipn n l) j = nth_error l (n + j).
Proof. revert l. induction n as [|n IH]; intros l; [reflexivity|]. destruct l as [|a l]; [destruct j; reflexivity|]. cbn. apply IH. Qed.
Lemma app_inv_tail_len {A} (a b c d : list A) : a ++ c = b ++ d -> length c = length d -> a = b /\ c = d.
Proof.
  revert b. induction a as [|x a IH]; intros [|y b] E L; cbn in E.
  - auto.
  - subst c. cbn in L. rewrite app_length in L. lia.
  - subst d. cbn in L. rewrite app_length in L. lia.
  - injection E as -> E. destruct (IH _ E L) as [-> ->]. auto.
Qed.
(** the places of a form that hold no elements *)
Definition free (j : nat) : Prop := j <> 1%nat /\ j <> 3%nat /\ j <> 4%nat /\ j <> 5%nat.
Definition alike (b b' : list val) : Prop := length b' = length b /\ forall j, free j -> nth_error b' j = nth_error b j.
Lemma free_zero : free 0. Proof. unfold free. lia. Qed.
Lemma free_two : free 2. Proof. unfold free. lia. Qed.
Lemma free_six j : (6 <= j)%nat -> free j. Proof. unfold free. lia. Qed.
Lemma list_enc_at (A : Type) (enc : A -> res val) i j items y raw r o : i <> j -> list_enc enc i items raw = Ok (r, o) -> list_enc enc i items (set_nth j y raw) = Ok (set_nth j y r, o).
Proof.
  intros Hi H. unfold list_enc in *. rewrite nth_set_other by congruence. destruct (nth_error raw i) as [sec|]; [|congruence].
  destruct (vget sec 1) as [c|]; [|discriminate]. cbn [bind] in *. destruct (is_str c kids_mark); [|congruence]. destruct (vlist sec) as [l|]; [|discriminate]. cbn [bind] in *.
  destruct items as [[|x xs]|].
  - rewrite set_swap by congruence. congruence.
  - destruct (mapm enc (x :: xs)) as [ys|]; [|discriminate]. cbn [bind] in *. rewrite set_swap by congruence. congruence.
  - rewrite set_swap by congruence. congruence.
Qed.
Lemma elems_encode_at parent fe j y raw r : free j -> elems_encode parent fe raw = Ok r -> elems_encode parent fe (set_nth j y raw) = Ok (set_nth j y r).
Proof.
  intros (F1 & F3 & F4 & F5) H. unfold elems_encode in *.
  destruct (list_enc cmd_enc 5 (fe_commands fe) raw) as [[r1 cmds]|] eqn:E1; [|discriminate]. rewrite (@list_enc_at _ _ 5 j _ y _ _ _ ltac:(congruence) E1). cbn [bind] in *.
  destruct (list_enc (prop_enc parent) 3 (fe_props fe) r1) as [[r2 props]|] eqn:E2; [|discriminate]. rewrite (@list_enc_at _ _ 3 j _ y _ _ _ ltac:(congruence) E2). cbn [bind] in *.
  destruct (names_commands cmds) as [ci|]; [|discriminate]. cbn [bind] in *.
  unfold root_of, vnth in *. rewrite nth_set_other by congruence. destruct (match nth_error r2 1 with Some v => Ok v | None => Err IndexError end) as [v|]; [|discriminate]. cbn [bind] in *. destruct (vlist v) as [root|]; [|discriminate]. cbn [bind] in *.
  destruct (elem_index root) as [idx|]; [|discriminate]. cbn [bind] in *. destruct (py_nth root idx) as [c|]; [|discriminate]. cbn [bind] in *.
  assert (G : forall q q', q' = set_nth j y q -> (' (x, _) <- list_enc par_enc 4 (fe_params fe) q ;; Ok x) = Ok r -> (' (x, _) <- list_enc par_enc 4 (fe_params fe) q' ;; Ok x) = Ok (set_nth j y r)).
  { intros q q' -> Hq. destruct (list_enc par_enc 4 (fe_params fe) q) as [[r3 o]|] eqn:E3; [|discriminate]. rewrite (@list_enc_at _ _ 4 j _ y _ _ _ ltac:(congruence) E3). cbn [bind] in *. congruence. }
  destruct (is_str c kids_mark).
  - destruct (fe_tree fe) as [t|]; [|discriminate]. destruct (enc_items (names_props props) ci (fe_data fe) [] t) as [rs|]; [|discriminate]. cbn [bind] in *. destruct (put_kids idx rs root) as [root'|]; [|discriminate]. cbn [bind] in *.
    destruct (Header.vset 1 (VList root') r2) as [r4|] eqn:E4; [|discriminate]. cbn [bind] in *. destruct (hvset_set _ _ _ E4) as [-> L]. rewrite hvset_ok by (rewrite length_set; exact L). cbn [bind].
    eapply G; [apply set_swap; congruence|exact H].
  - cbn [bind] in *. eapply G; [reflexivity|exact H].
Qed.
Lemma elems_encode_two parent fe y raw r : elems_encode parent fe raw = Ok r -> elems_encode parent fe (set_nth 2 y raw) = Ok (set_nth 2 y r).
Proof. apply elems_encode_at, free_two. Qed.
Lemma list_dec_keeps (A : Type) (dec : val -> val * res A) i raw : exists v, fst (list_dec dec i raw) = raw \/ fst (list_dec dec i raw) = set_nth i v raw.
Proof.
  unfold list_dec. destruct (nth_error raw i) as [[|s|[|h [|c l]]]|]; try (exists VNone; left; reflexivity). destruct (int_of_val c) as [n|]; [|exists VNone; left; reflexivity].
  destruct ((n =? 0)%Z || (n <? 0)%Z); [exists VNone; left; reflexivity|]. destruct (run_dec dec (Z.to_nat n) l) as [l' [ys|]]; eexists; right; reflexivity.
Qed.
Lemma list_dec_nth (A : Type) (dec : val -> val * res A) i j raw : i <> j -> nth_error (fst (list_dec dec i raw)) j = nth_error raw j.
Proof. intros H. destruct (list_dec_keeps dec i raw) as (v & [-> | ->]); [auto|]. rewrite nth_set_other by exact H. auto. Qed.
Lemma list_dec_len (A : Type) (dec : val -> val * res A) i raw : length (fst (list_dec dec i raw)) = length raw.
Proof. destruct (list_dec_keeps dec i raw) as (v & [-> | ->]); [auto|]. apply length_set. Qed.
Lemma elems_decode_keeps parent raw raw' fe : elems_decode parent raw = Ok (raw', fe) -> alike raw raw'.
Proof.
  intros H. unfold elems_decode in H.
  destruct (list_dec (prop_dec parent) 3 raw) as [r1 props] eqn:E1. destruct (list_dec cmd_dec 5 r1) as [r2 cmds] eqn:E2.
  destruct (root_of r2) as [root|]; [|discriminate]. cbn [bind] in H. destruct (elem_index root) as [idx|]; [|discriminate]. cbn [bind] in H.
  destruct (index_props props) as [pi|]; [|discriminate]. cbn [bind] in H. destruct (index_commands cmds) as [ci|]; [|discriminate]. cbn [bind] in H.
  destruct (dec_list (dec_elem pi ci (vdepth (VList root)) []) idx root []) as [[[tree root'] d]|]; [|discriminate]. cbn [bind] in H.
  destruct (list_dec par_dec 4 (set_nth 1 (VList root') r2)) as [r3 params] eqn:E3. injection H as <- _. split.
  - pose proof (list_dec_len (prop_dec parent) 3 raw) as A2. pose proof (list_dec_len cmd_dec 5 r1) as B2. pose proof (list_dec_len par_dec 4 (set_nth 1 (VList root') r2)) as C2. rewrite E1 in A2. rewrite E2 in B2. rewrite E3 in C2. rewrite length_set in C2. cbn [fst] in *. congruence.
  - intros j (F1 & F3 & F4 & F5). pose proof (@list_dec_nth _ (prop_dec parent) 3 j raw ltac:(congruence)) as A1. pose proof (@list_dec_nth _ cmd_dec 5 j r1 ltac:(congruence)) as B1. pose proof (@list_dec_nth _ par_dec 4 j (set_nth 1 (VList root') r2) ltac:(congruence)) as C1.
    rewrite E1 in A1. rewrite E2 in B1. rewrite E3 in C1. rewrite nth_set_other in C1 by congruence. cbn [fst] in *. congruence.
Qed.
Lemma form_is_at raw props cmds pars es j y : free j -> form_is raw props cmds pars es -> form_is (set_nth j y raw) props cmds pars es.
Proof.
  intros (F1 & F3 & F4 & F5) [(v0 & front & back & rest & x & data & E & F & L) B C D E' F' G]. split; try assumption.
  - subst raw. destruct j as [|[|j]]; [|congruence|].
    + exists y, front, back, rest, x, data. auto.
    + exists v0, front, back, (set_nth j y rest), x, data. auto.
  - destruct C as (vs & C1 & C2). exists vs. split; [|exact C2]. unfold section_at in *. rewrite nth_set_other by congruence. exact C1.
  - destruct D as (vs & C1 & C2). exists vs. split; [|exact C2]. unfold section_at in *. rewrite nth_set_other by congruence. exact C1.
  - destruct E' as (vs & C1 & C2). exists vs. split; [|exact C2]. unfold section_at in *. rewrite nth_set_other by congruence. exact C1.
Qed.

(** ** The module *)
Lemma literal_encode t : literal t = str_encode (double t). Proof. reflexivity. Qed.
Lemma decode_literal t : undouble (str_decode (literal t)) = t.
Proof. rewrite literal_encode, str_decode_encode. apply undouble_double. Qed.
Lemma first_kind_same raw raw' more more' : nth_error raw' 0 = nth_error raw 0 -> length raw' = length raw -> ~ first_kind (VList raw :: more) -> ~ first_kind (VList raw' :: more').
Proof.
  intros H0 Hl H F. apply H. destruct F as [(v & a & b & m & r & E & Hv)|(c & d & e & r & m & E & _)]; [|discriminate]. injection E as -> _. left.
  destruct raw as [|x [|y [|z raw]]]; cbn in Hl; try discriminate. cbn in H0. injection H0 as E0. subst x. eauto 10.
Qed.
Definition inner8 (v : list N) (mid : list val) (s : list N) (b5 b4 b3 b2 b1 : val) : list val := VStr v :: mid ++ [VStr s; b5; b4; b3; b2; b1; VStr t0; VStr t0].
Lemma last_place raw c ctx v mid b5 b4 b3 b2 b1 s new : In v [t22; t1] -> (2 <= length mid)%nat -> ~ first_kind [VList raw] ->
  getset_form_code new (VList raw :: c ++ [VList (nest ctx (inner8 v mid s b5 b4 b3 b2 b1))]) = Ok (s, VList raw :: c ++ [VList (nest ctx (inner8 v mid new b5 b4 b3 b2 b1))]).
Proof.
  intros Hv Hm Hk. assert (P : place (fun s => nest ((VList raw :: c) :: ctx) (inner8 v mid s b5 b4 b3 b2 b1))).
  { apply place_last; try assumption; intros s'; cbn [nest app]; [discriminate|]. apply (@first_kind_same raw raw [] _ eq_refl eq_refl Hk). }
  exact (getset_place _ s new P).
Qed.
Lemma last_none raw c ctx inner z new : ~ first_kind [VList raw] -> (forall l, z <> VList l) -> ~ holds_module (inner ++ [z]) ->
  getset_form_code new (VList raw :: c ++ [VList (nest ctx (inner ++ [z]))]) = Ok ([], VList raw :: c ++ [VList (nest ctx (inner ++ [z]))]).
Proof.
  intros Hk Hz Hm. rewrite getset_later; [|discriminate|].
  2: { destruct (first_kindb (VList raw)) eqn:E; [|reflexivity]. exfalso. apply Hk. apply (proj1 (first_kind_spec _ [])). exact E. }
  change (VList raw :: c ++ [VList (nest ctx (inner ++ [z]))]) with (nest ((VList raw :: c) :: ctx) (inner ++ [z])). rewrite on_last_nest by exact Hz.
  assert (L : getset_level (form_len (VList raw) <? 10)%nat new (inner ++ [z]) = Ok ([], inner ++ [z])).
  { assert (N0 : exists h r, inner ++ [z] = h :: r) by (destruct inner; cbn; eauto). destruct N0 as (h & r & N0). unfold getset_level. rewrite N0. change (vnth 0 (h :: r)) with (Ok h). cbn [bind].
    destruct (_ && is_in h [t49; t4]); [reflexivity|]. rewrite <- N0. destruct ((10 <? length (inner ++ [z]))%nat && is_in h [t22; t1]) eqn:E; [|reflexivity]. apply andb_true_iff in E. destruct E as [E1 E2].
    apply Nat.ltb_lt in E1. destruct (last8 _ E1) as (h' & mid & s & b5 & b4 & b3 & b2 & b1 & z2 & z1 & EL & Hmid). apply is_in_spec in E2. destruct E2 as (v & Eh & Hv). subst h. rewrite EL in N0. injection N0 as -> _.
    assert (A1 : vneg 1 (inner ++ [z]) = Ok z1) by (rewrite EL; change (VStr v :: mid ++ [s; b5; b4; b3; b2; b1; z2; z1]) with ((VStr v :: mid) ++ [s; b5; b4; b3; b2; b1; z2; z1]); change ([s; b5; b4; b3; b2; b1; z2; z1]) with ([s; b5; b4; b3; b2; b1; z2] ++ z1 :: []); rewrite app_assoc; apply vneg_app; reflexivity).
    assert (A2 : vneg 2 (inner ++ [z]) = Ok z2) by (rewrite EL; change (VStr v :: mid ++ [s; b5; b4; b3; b2; b1; z2; z1]) with ((VStr v :: mid) ++ [s; b5; b4; b3; b2; b1; z2; z1]); change ([s; b5; b4; b3; b2; b1; z2; z1]) with ([s; b5; b4; b3; b2; b1] ++ z2 :: [z1]); rewrite app_assoc; apply vneg_app; reflexivity).
    rewrite A1, A2. cbn [bind]. destruct (is_str z1 t0 && is_str z2 t0) eqn:E3; [|reflexivity]. exfalso. apply Hm. apply andb_true_iff in E3. destruct E3 as [E3 E4].
    destruct z1 as [|z1|]; try discriminate. destruct z2 as [|z2|]; try discriminate. cbn in E3, E4. apply str_eqb_spec in E3, E4. subst z1 z2. exists v, mid, s, b5, b4, b3, b2, b1. split; [exact Hv|]. split; [exact Hmid|exact EL]. }
  rewrite L. cbn [bind vlist]. reflexivity.
Qed.
Lemma decode_form_ok l raw l1 : getset_form_code code_mark l = Ok (raw, l1) -> decode_form l = Ok (undouble (str_decode raw), l1).
Proof. intros H. unfold decode_form. rewrite H. reflexivity. Qed.
Lemma encode_form_ok t l raw l1 : getset_form_code (literal t) l = Ok (raw, l1) -> encode_form t l = Ok l1.
Proof. intros H. unfold encode_form. rewrite literal_encode in H. rewrite H. reflexivity. Qed.

(** ** The elements of a managed form *)
Section Elements.
Variable left : ekind -> val -> jval.
Variable parent : option (list N).
(** what is written into the file of elements and what is left, for a form without its module *)
Lemma nth_none_set {A} i (x : A) l : nth_error l i = None -> set_nth i x l = l.
Proof. revert i. induction l as [|a l IH]; intros [|i] H; cbn in *; try reflexivity; try discriminate. rewrite IH by exact H. reflexivity. Qed.
Lemma managed_elems_cycle raw i two marked : managed_elems left parent raw marked -> free i -> marked = set_nth i two raw \/ marked = raw -> lsc marked ->
  exists raw' elems, jgood elems /\ lsc raw' /\ alike marked raw' /\
    ((exists fe, elems_decode parent marked = Ok (raw', fe) /\ elems = felems_json fe) \/ ((exists e, elems_decode parent marked = Err e) /\ raw' = marked /\ elems = left KManaged (VList marked))) /\
    (exists fe, felems_of elems = Ok fe /\ elems_encode parent fe (match nth_error raw i with Some y => set_nth i y raw' | None => raw' end) = Ok raw).
Proof.
  intros H Fi Hm Hs.
  assert (Back : match nth_error raw i with Some y => set_nth i y marked | None => marked end = raw).
  { destruct (nth_error raw i) as [y|] eqn:E.
    - destruct Hm as [-> | ->]; [rewrite set_set|]; apply set_same; exact E.
    - destruct Hm as [-> | ->]; [|reflexivity]. apply nth_none_set. exact E. }
  destruct H as [[Hp (props & cmds & pars & es & F)]|(L & (e & D) & J & fe & Hfe)].
  - assert (Fm : form_is marked props cmds pars es) by (destruct Hm as [-> | ->]; [apply form_is_at; [exact Fi|]|]; exact F).
    destruct (form_through Hp Fm) as (raw' & fe & D & _ & _ & _ & _ & _ & _ & E). destruct (elems_decode_sc parent Hs D) as [S1 S2].
    exists raw', (felems_json fe). split; [apply felems_json_good; exact S2|]. split; [exact S1|]. split; [exact (elems_decode_keeps _ _ D)|]. split; [left; eauto|]. exists fe. split; [apply felems_back|].
    destruct (nth_error raw i) as [y|] eqn:E2; [rewrite (elems_encode_at _ _ y _ Fi E)|rewrite E]; rewrite Back; reflexivity.
  - exists marked, (left KManaged (VList marked)). split; [exact J|]. split; [exact Hs|]. split; [split; reflexivity|]. split; [right; eauto|]. exists fe. split; [exact Hfe|].
    destruct (nth_error raw i) as [y|] eqn:E2; rewrite Back; apply form_left; exact L.
Qed.

Variable repr : val -> list N.
Variable auto : bool.
Variable old_dec : nat -> val -> res (val * jval).
Variable old_enc : nat -> jval -> val -> res val.
(** [l1] without the module and [l2] without the elements; [l2] with the module is [l3], and with the elements [l] *)
Definition ecycle (ty : list N) (l1 l2 l3 l : list val) : Prop :=
  exists vs elems, sc vs /\ jgood elems /\ lsc l2 /\
    (forall rest, exists k, decoder_of repr (VStr ty) (VList l1 :: rest) = Ok (vs, k) /\ take_elements left auto old_dec parent k (VList l1 :: rest) = Ok (VList l2 :: rest, elems)) /\
    (forall rest srcs fname, json_read srcs (dotted fname x_elem) = Ok elems -> put_elements repr auto old_enc parent (VStr ty) srcs fname (VList l3 :: rest) = Ok (VList l :: rest)).

Lemma managed_ecycle m t raw' elems r3 raw t3 : jgood elems -> lsc raw' -> lsc t ->
  ((exists fe, elems_decode parent m = Ok (raw', fe) /\ elems = felems_json fe) \/ ((exists e, elems_decode parent m = Err e) /\ raw' = m /\ elems = left KManaged (VList m))) ->
  (exists fe, felems_of elems = Ok fe /\ elems_encode parent fe r3 = Ok raw) ->
  ecycle t1 (VList m :: t) (VList raw' :: t) (VList r3 :: t3) (VList raw :: t3).
Proof.
  intros J S1 S2 D (fe & F & E). exists t1, elems. split; [unfold t1; repeat constructor|]. split; [exact J|]. split; [constructor; [apply scal_list; exact S1|exact S2]|]. split.
  - intros rest. exists (Some KManaged). split; [reflexivity|]. unfold take_elements, elements_out. cbn [vlist bind]. destruct D as [(fe' & D & ->)|((e & D) & -> & ->)]; rewrite D; reflexivity.
  - intros rest srcs fname R. unfold put_elements. change (decoder_of repr (VStr t1) (VList (VList r3 :: t3) :: rest)) with (@Ok (list N * option ekind) (t1, Some KManaged)). cbn [bind]. rewrite R. cbn [bind elements_back]. rewrite F. cbn [bind vlist]. rewrite E. reflexivity.
Qed.
Lemma set_two_same {A} (r m : list A) : nth_error r 2 = nth_error m 2 -> match nth_error m 2 with Some y => set_nth 2 y r | None => r end = r.
Proof. intros H. destruct (nth_error m 2) as [y|]; [apply set_same; exact H|reflexivity]. Qed.
Lemma lsc_app a b : lsc (a ++ b) <-> lsc a /\ lsc b. Proof. apply Forall_app. Qed.
Lemma scal_lsc l : scal (VList l) <-> lsc l.
Proof. split; [|apply scal_list]. intros H. apply Forall_forall. intros x Hx. eapply scal_list_in; eassumption. Qed.
Lemma lsc_nest ctx i i' : (lsc i -> lsc i') -> lsc (nest ctx i) -> lsc (nest ctx i').
Proof.
  intros Hi. induction ctx as [|c ctx IH]; cbn [nest]; [exact Hi|]. rewrite !lsc_app. intros [A B]. split; [exact A|]. inversion B as [|? ? B1 _]; subst. constructor; [|constructor]. apply scal_lsc. apply IH. apply scal_lsc. exact B1.
Qed.
Lemma lsc_inside ctx i : lsc (nest ctx i) -> lsc i.
Proof.
  induction ctx as [|c ctx IH]; cbn [nest]; [auto|]. rewrite lsc_app. intros [_ B]. inversion B as [|? ? B1 _]; subst. apply IH. apply scal_lsc. exact B1.
Qed.
Lemma mark_sc : sc code_mark. Proof. apply (scal_str code_mark). unfold scal, code_mark. cbn [leaves concat app]. repeat constructor; try lia; reflexivity. Qed.
Lemma flat_sub (t : list N) c : In c t -> In c (flat_map (fun c => if c =? 34 then [34; 34] else [c]) t).
Proof. intros H. apply in_flat_map. exists c. split; [exact H|]. destruct (c =? 34) eqn:E; [apply N.eqb_eq in E; subst; left; reflexivity|left; reflexivity]. Qed.
Lemma literal_sc t : sc (literal t) -> sc t.
Proof. intros H. unfold literal in H. inversion H as [|? ? _ H1]; subst. apply Forall_app in H1. destruct H1 as [H1 _]. rewrite Forall_forall in *. intros c Hc. apply H1. apply flat_sub. exact Hc. Qed.

(** the file is one list *)
Lemma set_last (front : list val) x y n : length front = n -> set_nth n y (front ++ [x]) = front ++ [y].
Proof. intros <-. induction front as [|a f IH]; [reflexivity|]. cbn [app length set_nth]. rewrite IH. reflexivity. Qed.
Lemma set_mid (mid : list val) v x y r n : length mid = n -> set_nth (S n) y (v :: mid ++ x :: r) = v :: mid ++ y :: r.
Proof. intros <-. cbn [set_nth]. f_equal. induction mid as [|a f IH]; [reflexivity|]. cbn [app length set_nth]. rewrite IH. reflexivity. Qed.
Lemma alike_front (front : list val) x b' : length b' = length (front ++ [x]) -> (forall j, free j -> nth_error b' j = nth_error (front ++ [x]) j) -> (6 <= length front)%nat ->
  exists front' x', b' = front' ++ [x'] /\ length front' = length front /\ nth_error front' 0 = nth_error front 0.
Proof.
  intros L Al Hf. rewrite app_length in L. cbn in L. destruct (@exists_last _ b') as (front' & x' & ->); [intros ->; cbn in L; lia|]. rewrite app_length in L. cbn in L. exists front', x'. split; [reflexivity|]. assert (length front' = length front) as Lf by lia. split; [exact Lf|].
  pose proof (Al 0%nat free_zero) as E. rewrite !nth_error_app1 in E by lia. exact E.
Qed.
Lemma alike_tail (front back b' : list val) : length b' = length (front ++ back) -> (forall j, free j -> nth_error b' j = nth_error (front ++ back) j) -> (6 <= length front)%nat -> exists front', b' = front' ++ back /\ length front' = length front /\ nth_error front' 0 = nth_error front 0.
Proof.
  intros L Al Hf. exists (firstn (length front) b'). assert (Ll : length (firstn (length front) b') = length front) by (rewrite firstn_length, L, app_length; lia). split; [|split; [exact Ll|]].
  - rewrite <- (firstn_skipn (length front) b') at 1. f_equal. apply nth_ext_opt. intros j. rewrite nth_error_skipn. rewrite Al by (apply free_six; lia). rewrite nth_error_app2 by lia. f_equal. lia.
  - pose proof (Al 0%nat free_zero) as E. rewrite nth_error_app1 in E by lia. rewrite <- E. rewrite <- (firstn_skipn (length front) b') at 2. rewrite nth_error_app1 by lia. reflexivity.
Qed.
Lemma alike_two (front : list val) y z b' : length b' = length (front ++ [y; z]) -> (forall j, free j -> nth_error b' j = nth_error (front ++ [y; z]) j) -> (6 <= length front)%nat -> exists front', b' = front' ++ [y; z] /\ length front' = length front /\ nth_error front' 0 = nth_error front 0.
Proof. apply alike_tail. Qed.
Lemma alike_self v mid r x b' : length b' = length (VStr v :: mid ++ x :: r) -> (forall j, free j -> nth_error b' j = nth_error (VStr v :: mid ++ x :: r) j) -> (5 <= length mid)%nat -> exists mid' x', b' = VStr v :: mid' ++ x' :: r /\ length mid' = length mid.
Proof.
  intros L Al Hm. destruct (@alike_tail (VStr v :: mid) (x :: r) b' L Al ltac:(cbn; lia)) as (front' & -> & Lf & N0). destruct front' as [|v' mid']; [discriminate|]. cbn in N0, Lf. injection N0 as ->. exists mid', x. split; [reflexivity|]. lia.
Qed.
Lemma inside_place front ctx v mid b5 b4 b3 b2 b1 s new : In v [t22; t1] -> (2 <= length mid)%nat -> (6 <= length front)%nat -> ~ first_kind [VList front] ->
  getset_form_code new [VList (front ++ [VList (nest ctx (inner8 v mid s b5 b4 b3 b2 b1))])] = Ok (s, [VList (front ++ [VList (nest ctx (inner8 v mid new b5 b4 b3 b2 b1))])]).
Proof.
  intros Hv Hm Hf Hk. assert (P : place (fun s => nest ([] :: front :: ctx) (inner8 v mid s b5 b4 b3 b2 b1))).
  { apply place_last; try assumption; intros s'; cbn [nest app]; [discriminate|]. intros F. apply Hk. destruct F as [(w & a & b & m & r & E & Hw)|(c & d & e & r & m & E & _)]; [|discriminate]. injection E as E _. destruct front as [|x [|y [|z front]]]; cbn in Hf; try lia. cbn in E. injection E as -> -> -> _. left. eauto 10. }
  exact (getset_place _ s new P).
Qed.
Lemma self_place v mid b5 b4 b3 b2 b1 s new : In v [t22; t1] -> (2 <= length mid)%nat ->
  getset_form_code new [VList (inner8 v mid s b5 b4 b3 b2 b1)] = Ok (s, [VList (inner8 v mid new b5 b4 b3 b2 b1)]).
Proof.
  intros Hv Hm. assert (P : place (fun s => nest [[]] (inner8 v mid s b5 b4 b3 b2 b1))).
  { apply place_last; try assumption; intros s'; cbn [nest app]; [discriminate|]. intros F. destruct F as [(w & a & b & m & r & E & Hw)|(c & d & e & r & m & E & _)]; [|discriminate]. injection E as E _ _. subst w. destruct Hv as [<-|[<-|[]]]; destruct Hw as [X|[X|[X|[]]]]; discriminate. }
  exact (getset_place _ s new P).
Qed.
Lemma level_none short inner z new : ~ holds_module (inner ++ [z]) -> getset_level short new (inner ++ [z]) = Ok ([], inner ++ [z]).
Proof.
  intros Hm. assert (N0 : exists h r, inner ++ [z] = h :: r) by (destruct inner; cbn; eauto). destruct N0 as (h & r & N0). unfold getset_level. rewrite N0. change (vnth 0 (h :: r)) with (Ok h). cbn [bind].
  destruct (_ && is_in h [t49; t4]); [reflexivity|]. rewrite <- N0. destruct ((10 <? length (inner ++ [z]))%nat && is_in h [t22; t1]) eqn:E; [|reflexivity]. apply andb_true_iff in E. destruct E as [E1 E2].
  apply Nat.ltb_lt in E1. destruct (last8 _ E1) as (h' & mid & s & b5 & b4 & b3 & b2 & b1 & z2 & z1 & EL & Hmid). apply is_in_spec in E2. destruct E2 as (v & Eh & Hv). subst h. rewrite EL in N0. injection N0 as -> _.
  assert (A1 : vneg 1 (inner ++ [z]) = Ok z1) by (rewrite EL; change (VStr v :: mid ++ [s; b5; b4; b3; b2; b1; z2; z1]) with ((VStr v :: mid) ++ [s; b5; b4; b3; b2; b1; z2; z1]); change ([s; b5; b4; b3; b2; b1; z2; z1]) with ([s; b5; b4; b3; b2; b1; z2] ++ z1 :: []); rewrite app_assoc; apply vneg_app; reflexivity).
  assert (A2 : vneg 2 (inner ++ [z]) = Ok z2) by (rewrite EL; change (VStr v :: mid ++ [s; b5; b4; b3; b2; b1; z2; z1]) with ((VStr v :: mid) ++ [s; b5; b4; b3; b2; b1; z2; z1]); change ([s; b5; b4; b3; b2; b1; z2; z1]) with ([s; b5; b4; b3; b2; b1] ++ z2 :: [z1]); rewrite app_assoc; apply vneg_app; reflexivity).
  rewrite A1, A2. cbn [bind]. destruct (is_str z1 t0 && is_str z2 t0) eqn:E3; [|reflexivity]. exfalso. apply Hm. apply andb_true_iff in E3. destruct E3 as [E3 E4].
  destruct z1 as [|z1|]; try discriminate. destruct z2 as [|z2|]; try discriminate. cbn in E3, E4. apply str_eqb_spec in E3, E4. subst z1 z2. exists v, mid, s, b5, b4, b3, b2, b1. split; [exact Hv|]. split; [exact Hmid|exact EL].
Qed.
Lemma single_none front ctx inner z new : ~ first_kind [VList (nest ctx (inner ++ [z]))] -> (forall l, z <> VList l) -> ~ holds_module (inner ++ [z]) -> front = nest ctx (inner ++ [z]) -> getset_form_code new [VList front] = Ok ([], [VList front]).
Proof.
  intros Hk Hz Hm ->. rewrite getset_later; [|discriminate|].
  2: { destruct (first_kindb (VList (nest ctx (inner ++ [z])))) eqn:E; [|reflexivity]. exfalso. apply Hk. apply (proj1 (first_kind_spec _ [])). exact E. }
  change [VList (nest ctx (inner ++ [z]))] with (nest ([] :: ctx) (inner ++ [z])). rewrite on_last_nest by exact Hz. rewrite level_none by exact Hm. reflexivity.
Qed.
Lemma longer_kind front r : (3 <= length front)%nat -> ~ first_kind [VList front] -> ~ first_kind [VList (front ++ r)].
Proof. intros Hf Hk F. apply Hk. destruct F as [(w & a & b & m & q & E & Hw)|(c & d & e & q & m & E & _)]; [|discriminate]. injection E as E _. destruct front as [|x [|y [|z front]]]; cbn in Hf; try lia. cbn in E. injection E as -> -> -> _. left. eauto 10. Qed.
Lemma inside_none front ctx inner z new : (6 <= length front)%nat -> ~ first_kind [VList front] -> (forall l, z <> VList l) -> ~ holds_module (inner ++ [z]) ->
  getset_form_code new [VList (front ++ [VList (nest ctx (inner ++ [z]))])] = Ok ([], [VList (front ++ [VList (nest ctx (inner ++ [z]))])]).
Proof. intros Hf Hk Hz Hm. eapply (@single_none _ (front :: ctx) inner z); [|exact Hz|exact Hm|reflexivity]. cbn [nest]. apply longer_kind; [lia|exact Hk]. Qed.
Lemma self_none front y z new : (6 <= length front)%nat -> ~ first_kind [VList front] -> (forall l, z <> VList l) -> ~ holds_module (front ++ [y; z]) -> getset_form_code new [VList (front ++ [y; z])] = Ok ([], [VList (front ++ [y; z])]).
Proof.
  intros Hf Hk Hz Hm. change [y; z] with ([y] ++ [z]) in *. rewrite app_assoc in *. eapply (@single_none _ [] (front ++ [y]) z); [|exact Hz|exact Hm|reflexivity]. cbn [nest]. rewrite <- app_assoc. apply longer_kind; [lia|exact Hk].
Qed.
Lemma holds_same (front front' : list val) y z : nth_error front' 0 = nth_error front 0 -> length front' = length front -> holds_module (front' ++ [y; z]) -> (6 <= length front)%nat -> holds_module (front ++ [y; z]).
Proof.
  intros N0 L (v & mid & x & b5 & b4 & b3 & b2 & b1 & Hv & Hm & E) Hf. assert (Ly : length (front' ++ [y; z]) = length (VStr v :: mid ++ [x; b5; b4; b3; b2; b1; VStr t0; VStr t0])) by (rewrite E; reflexivity). rewrite !app_length in Ly. cbn [length] in Ly. rewrite app_length in Ly. cbn [length] in Ly.
  change (VStr v :: mid ++ [x; b5; b4; b3; b2; b1; VStr (u "0"); VStr (u "0")]) with ((VStr v :: mid) ++ [x; b5; b4; b3; b2; b1] ++ [VStr t0; VStr t0]) in E. rewrite app_assoc in E. apply app_inv_tail_len in E; [|reflexivity]. destruct E as [E1 E2]. injection E2 as -> ->.
  assert (nth_error front 0 = Some (VStr v)) as N1 by (rewrite <- N0, E1; reflexivity). destruct front as [|v' front]; [discriminate|]. cbn in N1. injection N1 as ->. cbn [length] in L. 
  assert (Lf : length front = (length mid + 6)%nat) by lia. 
  exists v, (firstn (length mid) front). destruct (skipn (length mid) front) as [|x' [|c5 [|c4 [|c3 [|c2 [|c1 [|c0 r]]]]]]] eqn:Es; try (assert (Lk : length (skipn (length mid) front) = 6%nat) by (rewrite skipn_length; lia); rewrite Es in Lk; cbn in Lk; lia).
  exists x', c5, c4, c3, c2, c1. split; [exact Hv|]. split; [rewrite firstn_length; lia|]. cbn [app]. f_equal. rewrite <- (firstn_skipn (length mid) front) at 1. rewrite Es, <- app_assoc. reflexivity.
Qed.
Lemma inside_sc front ctx v mid text b5 b4 b3 b2 b1 : lsc (front ++ [VList (nest ctx (inner8 v mid (literal text) b5 b4 b3 b2 b1))]) ->
  sc text /\ lsc (front ++ [VList (nest ctx (inner8 v mid code_mark b5 b4 b3 b2 b1))]) /\ lsc (inner8 v mid code_mark b5 b4 b3 b2 b1).
Proof.
  intros Hs. apply lsc_app in Hs. destruct Hs as [Sf Sn]. inversion Sn as [|? ? Sn1 _]; subst. apply scal_lsc in Sn1. pose proof (lsc_inside ctx _ Sn1) as Si. assert (Mk : lsc (inner8 v mid (literal text) b5 b4 b3 b2 b1) -> lsc (inner8 v mid code_mark b5 b4 b3 b2 b1)).
  { unfold inner8. intros X. inversion X as [|? ? X0 X1]; subst. constructor; [exact X0|]. apply lsc_app in X1. destruct X1 as [X1 X2]. apply lsc_app. split; [exact X1|]. inversion X2 as [|? ? _ X3]; subst. constructor; [apply scal_str; exact mark_sc|exact X3]. }
  split; [|split; [|exact (Mk Si)]].
  - apply literal_sc. unfold inner8 in Si. inversion Si as [|? ? _ Si1]; subst. apply lsc_app in Si1. destruct Si1 as [_ Si1]. inversion Si1 as [|? ? Si2 _]; subst. apply scal_str. exact Si2.
  - apply lsc_app. split; [exact Sf|]. constructor; [|constructor]. apply scal_lsc. eapply lsc_nest; [exact Mk|exact Sn1].
Qed.
Lemma one_module (Y : list N -> val) base i text : free i -> (i < length base)%nat ->
  (forall b', alike base b' -> forall s new, getset_form_code new [VList (set_nth i (Y s) b')] = Ok (s, [VList (set_nth i (Y new) b')])) ->
  managed_elems left parent (set_nth i (Y (literal text)) base) (set_nth i (Y code_mark) base) -> form_text text -> sc text -> lsc (set_nth i (Y code_mark) base) ->
  let l := [VList (set_nth i (Y (literal text)) base)] in
  exists l1 l2, form_text text /\ sc text /\ decode_form l = Ok (text, l1) /\ (exists c, getset_form_code (literal text) l = Ok (c, l)) /\
    forall t', exists l3 l4 c, encode_form t' l2 = Ok l3 /\ getset_form_code (literal t') l = Ok (c, l4) /\ ecycle t1 l1 l2 l3 l4.
Proof.
  intros Fi Li Hg He Ht Sx Hs l. assert (Ab : alike base base) by (split; reflexivity).
  destruct (@managed_elems_cycle _ i (Y code_mark) (set_nth i (Y code_mark) base) He Fi) as (raw' & elems & J & S1 & (Len & Al) & D & fe & F & E); [left; rewrite set_set; reflexivity|exact Hs|].
  assert (Ab' : alike base raw' \/ True) by (right; exact Logic.I). rewrite nth_set_same in E by exact Li. rewrite length_set in Len.
  assert (Er : raw' = set_nth i (Y code_mark) raw') by (symmetry; apply set_same; rewrite Al by exact Fi; apply nth_set_same; exact Li).
  set (b' := match nth_error base i with Some y => set_nth i y raw' | None => raw' end).
  assert (A' : alike base b' /\ set_nth i (Y code_mark) b' = raw' /\ forall y, set_nth i y b' = set_nth i y raw').
  { unfold b'. destruct (nth_error base i) as [y|] eqn:Ei; [|apply nth_error_None in Ei; lia]. split; [split|split].
    - rewrite length_set. exact Len.
    - intros j Hj. destruct (Nat.eq_dec i j) as [<-|Nj]; [rewrite nth_set_same by lia; congruence|]. rewrite nth_set_other by exact Nj. rewrite Al by exact Hj. apply nth_set_other. exact Nj.
    - rewrite set_set. symmetry. exact Er.
    - intros y'. apply set_set. }
  destruct A' as (A1 & A2 & A3).
  exists [VList (set_nth i (Y code_mark) base)], [VList raw']. split; [exact Ht|]. split; [exact Sx|]. split; [|split].
  - unfold l. rewrite (@decode_form_ok _ (literal text) [VList (set_nth i (Y code_mark) base)]); [rewrite decode_literal; reflexivity|]. apply Hg. exact Ab.
  - exists (literal text). apply Hg. exact Ab.
  - intros t'. exists [VList (set_nth i (Y (literal t')) raw')], [VList (set_nth i (Y (literal t')) base)], (literal text). split; [|split].
    + eapply encode_form_ok. rewrite <- A2 at 1. rewrite <- A3. apply Hg. exact A1.
    + apply Hg. exact Ab.
    + eapply managed_ecycle; [exact J|exact S1|constructor|exact D|]. exists fe. split; [exact F|]. apply (elems_encode_at _ _ (Y (literal t')) _ Fi) in E. rewrite !set_set in E. exact E.
Qed.
Lemma one_none raw : (forall b', alike raw b' -> forall new, getset_form_code new [VList b'] = Ok ([], [VList b'])) -> managed_elems left parent raw raw -> lsc raw ->
  exists l1 l2, form_text [] /\ sc [] /\ decode_form [VList raw] = Ok ([], l1) /\ (exists c, getset_form_code (literal []) [VList raw] = Ok (c, [VList raw])) /\
    forall t', exists l3 l4 c, encode_form t' l2 = Ok l3 /\ getset_form_code (literal t') [VList raw] = Ok (c, l4) /\ ecycle t1 l1 l2 l3 l4.
Proof.
  intros Hg He Hs. destruct (@managed_elems_cycle _ 2 VNone _ He free_two (or_intror eq_refl) Hs) as (raw' & elems & J & S1 & A & D & fe & F & E). rewrite set_two_same in E by (apply A; exact free_two).
  assert (Ab : alike raw raw) by (split; reflexivity).
  exists [VList raw], [VList raw']. split; [split; [intros []|discriminate]|]. split; [constructor|]. split; [|split].
  - eapply (@decode_form_ok _ []). apply Hg. exact Ab.
  - exists []. apply Hg. exact Ab.
  - intros t'. exists [VList raw'], [VList raw], []. split; [|split].
    + eapply encode_form_ok. apply Hg. exact A.
    + apply Hg. exact Ab.
    + eapply managed_ecycle; [exact J|exact S1|constructor|exact D|exists fe; auto].
Qed.

(** with any text in place of the module *)
Lemma managed_cycle_any l text : managed_is left parent l text -> lsc l -> exists l1 l2, form_text text /\ sc text /\ decode_form l = Ok (text, l1) /\ (exists c, getset_form_code (literal text) l = Ok (c, l)) /\
  forall t', exists l3 l4 c, encode_form t' l2 = Ok l3 /\ getset_form_code (literal t') l = Ok (c, l4) /\ ecycle t1 l1 l2 l3 l4.
Proof.
  intros H Hs. destruct H as [v a text more rest Hv Ht He|raw c ctx v mid text b5 b4 b3 b2 b1 Hv Hm Ht Hk He|raw c ctx inner z Hk Hz Hi He|front ctx v mid text b5 b4 b3 b2 b1 Hv Hm Ht Hf Hk raw He|v mid text b5 b4 b3 b2 b1 Hv Hm Ht raw He|front ctx inner z Hf Hk Hz Hi raw He|front y z Hf Hk Hz Hi raw He].
  - inversion Hs as [|? ? Sr St]; subst. apply scal_lsc in Sr. inversion Sr as [|? ? Q0 Sr1]; subst. inversion Sr1 as [|? ? Q1 Sr2]; subst. inversion Sr2 as [|? ? Q2 Q3]; subst.
    assert (Sm : lsc (VStr v :: a :: VStr code_mark :: more)) by (constructor; [exact Q0|]; constructor; [exact Q1|]; constructor; [apply scal_str; exact mark_sc|exact Q3]).
    destruct (@managed_elems_cycle _ 2 (VStr code_mark) _ He free_two (or_introl eq_refl) Sm) as (raw' & elems & J & S1 & (Len & Al) & D & fe & F & E). pose proof (Al 0%nat free_zero) as N0. pose proof (Al 2%nat free_two) as N2. cbn [nth_error] in E, N0, N2.
    destruct raw' as [|x0 [|x1 [|x2 r]]]; cbn in Len; try discriminate. cbn in N0, N2. injection N0 as ->. injection N2 as ->. cbn [set_nth] in E.
    exists (VList (VStr v :: a :: VStr code_mark :: more) :: rest), (VList (VStr v :: x1 :: VStr code_mark :: r) :: rest).
    split; [exact Ht|]. split; [apply literal_sc; apply scal_str; exact Q2|]. split; [|split].
    + rewrite (@decode_form_ok _ (literal text) (VList (VStr v :: a :: VStr code_mark :: more) :: rest)); [rewrite decode_literal; reflexivity|]. exact (getset_place _ (literal text) code_mark (@place_first v a more rest Hv)).
    + exists (literal text). exact (getset_place _ (literal text) (literal text) (@place_first v a more rest Hv)).
    + intros t'. exists (VList (VStr v :: x1 :: VStr (literal t') :: r) :: rest), (VList (VStr v :: a :: VStr (literal t') :: more) :: rest), (literal text). split; [|split].
      * eapply encode_form_ok. exact (getset_place _ code_mark (literal t') (@place_first v x1 r rest Hv)).
      * exact (getset_place _ (literal text) (literal t') (@place_first v a more rest Hv)).
      * eapply managed_ecycle; [exact J|exact S1|exact St|exact D|]. exists fe. split; [exact F|]. exact (elems_encode_two _ _ (VStr (literal t')) _ E).
  - cbn [nest app] in *. inversion Hs as [|? ? Sr St]; subst. apply scal_lsc in Sr. pose proof St as St'. apply lsc_app in St'. destruct St' as [Sc Sn]. inversion Sn as [|? ? Sn1 _]; subst. apply scal_lsc in Sn1.
    fold (inner8 v mid (literal text) b5 b4 b3 b2 b1) in *.
    destruct (@managed_elems_cycle _ 2 VNone _ He free_two (or_intror eq_refl) Sr) as (raw' & elems & J & S1 & (Len & Al) & D & fe & F & E). pose proof (Al 0%nat free_zero) as N0. pose proof (Al 2%nat free_two) as N2. rewrite set_two_same in E by exact N2.
    assert (Hk' : ~ first_kind [VList raw']) by (exact (@first_kind_same raw raw' [] [] N0 Len Hk)).
    exists (VList raw :: c ++ [VList (nest ctx (inner8 v mid code_mark b5 b4 b3 b2 b1))]), (VList raw' :: c ++ [VList (nest ctx (inner8 v mid code_mark b5 b4 b3 b2 b1))]).
    assert (Si : lsc (inner8 v mid (literal text) b5 b4 b3 b2 b1)) by (apply (lsc_inside ctx); exact Sn1).
    split; [exact Ht|]. split.
    { apply literal_sc. unfold inner8 in Si. inversion Si as [|? ? _ Si1]; subst. apply lsc_app in Si1. destruct Si1 as [_ Si1]. inversion Si1 as [|? ? Si2 _]; subst. apply scal_str. exact Si2. }
    split; [|split].
    + rewrite (@decode_form_ok _ (literal text) (VList raw :: c ++ [VList (nest ctx (inner8 v mid code_mark b5 b4 b3 b2 b1))])); [rewrite decode_literal; reflexivity|]. apply last_place; assumption.
    + exists (literal text). apply last_place; assumption.
    + intros t'. exists (VList raw' :: c ++ [VList (nest ctx (inner8 v mid (literal t') b5 b4 b3 b2 b1))]), (VList raw :: c ++ [VList (nest ctx (inner8 v mid (literal t') b5 b4 b3 b2 b1))]), (literal text). split; [|split].
      * eapply encode_form_ok. apply last_place; assumption.
      * apply last_place; assumption.
      * eapply managed_ecycle; [exact J|exact S1| |exact D|exists fe; auto]. apply lsc_app. split; [exact Sc|]. constructor; [|constructor]. apply scal_lsc. eapply lsc_nest; [|exact Sn1]. unfold inner8. intros X. inversion X as [|? ? X0 X1]; subst. constructor; [exact X0|].
        apply lsc_app in X1. destruct X1 as [X1 X2]. apply lsc_app. split; [exact X1|]. inversion X2 as [|? ? _ X3]; subst. constructor; [apply scal_str; exact mark_sc|exact X3].
  - cbn [nest app] in *. inversion Hs as [|? ? Sr St]; subst. apply scal_lsc in Sr.
    destruct (@managed_elems_cycle _ 2 VNone _ He free_two (or_intror eq_refl) Sr) as (raw' & elems & J & S1 & (Len & Al) & D & fe & F & E). pose proof (Al 0%nat free_zero) as N0. pose proof (Al 2%nat free_two) as N2. rewrite set_two_same in E by exact N2.
    assert (Hk' : ~ first_kind [VList raw']) by (exact (@first_kind_same raw raw' [] [] N0 Len Hk)).
    exists (VList raw :: c ++ [VList (nest ctx (inner ++ [z]))]), (VList raw' :: c ++ [VList (nest ctx (inner ++ [z]))]).
    split; [split; [intros []|discriminate]|]. split; [constructor|]. split; [|split].
    + eapply (@decode_form_ok _ []). apply last_none; assumption.
    + exists []. apply last_none; assumption.
    + intros t'. exists (VList raw' :: c ++ [VList (nest ctx (inner ++ [z]))]), (VList raw :: c ++ [VList (nest ctx (inner ++ [z]))]), []. split; [|split].
      * eapply encode_form_ok. apply last_none; assumption.
      * apply last_none; assumption.
      * eapply managed_ecycle; [exact J|exact S1|exact St|exact D|exists fe; auto].
  - inversion Hs as [|? ? Sr _]; subst. apply scal_lsc in Sr. pose proof (@inside_sc front ctx v mid text b5 b4 b3 b2 b1 Sr) as (St & Sm & _).
    destruct (@one_module (fun s => VList (nest ctx (inner8 v mid s b5 b4 b3 b2 b1))) (front ++ [VNone]) (length front) text (free_six Hf) ltac:(rewrite app_length; cbn; lia)) as (l1 & l2 & A); try assumption.
    + intros b' (L & Al) s new. pose proof (alike_front _ _ _ L Al Hf) as (front' & x' & -> & Lf & N0). rewrite !set_last by exact Lf. apply inside_place; [exact Hv|exact Hm|lia|]. eapply first_kind_same; [exact N0|exact Lf|exact Hk].
    + rewrite !set_last by reflexivity. exact He.
    + rewrite set_last by reflexivity. exact Sm.
    + exists l1, l2. rewrite set_last in A by reflexivity. exact A.
  - inversion Hs as [|? ? Sr _]; subst. apply scal_lsc in Sr. pose proof (@inside_sc [] [] v mid text b5 b4 b3 b2 b1) as Sn. cbn [nest app] in Sn. destruct Sn as (St & _ & Sm); [constructor; [apply scal_lsc; exact Sr|constructor]|].
    destruct (@one_module (fun s => VStr s) (VStr v :: mid ++ [VNone; b5; b4; b3; b2; b1; VStr t0; VStr t0]) (S (length mid)) text (@free_six (S (length mid)) ltac:(lia)) ltac:(cbn [length]; rewrite app_length; cbn [length]; lia)) as (l1 & l2 & A); try assumption.
    + intros b' (L & Al) s new. destruct (@alike_self v mid _ _ _ L Al Hm) as (mid' & x' & -> & Lm). rewrite !set_mid by exact Lm. apply self_place; [exact Hv|lia].
    + rewrite !set_mid by reflexivity. exact He.
    + rewrite set_mid by reflexivity. exact Sm.
    + exists l1, l2. rewrite set_mid in A by reflexivity. exact A.
  - inversion Hs as [|? ? Sr _]; subst. apply scal_lsc in Sr. apply one_none; try assumption. intros b' (L & Al) new. destruct (alike_front _ _ _ L Al Hf) as (front' & x' & -> & Lf & N0). pose proof (Al (length front) (free_six Hf)) as E.
    unfold raw in E. rewrite (nth_error_app2 front) in E by lia. rewrite (nth_error_app2 front') in E by lia. rewrite Lf, Nat.sub_diag in E. cbn [nth_error] in E. injection E as ->. apply inside_none; [lia| |exact Hz|exact Hi]. eapply first_kind_same; [exact N0|exact Lf|exact Hk].
  - inversion Hs as [|? ? Sr _]; subst. apply scal_lsc in Sr. apply one_none; try assumption. intros b' (L & Al) new. destruct (@alike_two _ _ _ _ L Al Hf) as (front' & -> & Lf & N0). apply self_none; [lia| |exact Hz|].
    + eapply first_kind_same; [exact N0|exact Lf|exact Hk].
    + intros Hh. apply Hi. eapply holds_same; [exact N0|exact Lf|exact Hh|lia].
Qed.
Lemma managed_cycle l text : managed_is left parent l text -> lsc l -> exists l1 l2 l3, form_text text /\ sc text /\ decode_form l = Ok (text, l1) /\ ecycle t1 l1 l2 l3 l /\ encode_form text l2 = Ok l3.
Proof.
  intros H Hs. destruct (managed_cycle_any H Hs) as (l1 & l2 & A & B & C & (c & D) & E). destruct (E text) as (l3 & l4 & c' & E1 & E2 & E3). exists l1, l2, l3. rewrite D in E2. injection E2 as _ <-. auto.
Qed.
(** the entries of the file of elements are the same whatever the module is *)
Lemma ecycle_any l1 l2 (R : list N -> list val -> list val -> Prop) : (forall t', exists l3 l4, R t' l3 l4 /\ ecycle t1 l1 l2 l3 l4) ->
  exists vs elems, sc vs /\ jgood elems /\ lsc l2 /\
    (forall rest, exists k, decoder_of repr (VStr t1) (VList l1 :: rest) = Ok (vs, k) /\ take_elements left auto old_dec parent k (VList l1 :: rest) = Ok (VList l2 :: rest, elems)) /\
    forall t', exists l3 l4, R t' l3 l4 /\ forall rest srcs fname, json_read srcs (dotted fname x_elem) = Ok elems -> put_elements repr auto old_enc parent (VStr t1) srcs fname (VList l3 :: rest) = Ok (VList l4 :: rest).
Proof.
  intros H. destruct (H []) as (l3 & l4 & _ & vs & elems & A & B & C & D & _). exists vs, elems. do 4 (split; [assumption|]). intros t'. destruct (H t') as (m3 & m4 & HR & vs' & elems' & A' & B' & C' & D' & E').
  exists m3, m4. split; [exact HR|]. intros rest srcs fname J. apply E'. destruct (D rest) as (k & D1 & D2). destruct (D' rest) as (k' & D1' & D2'). rewrite D1 in D1'. injection D1' as <- <-. rewrite D2 in D2'. injection D2' as <-. exact J.
Qed.
Lemma managed_nonempty l text : managed_is left parent l text -> exists raw r, l = VList raw :: r.
Proof. destruct 1; cbn [nest app]; eauto. Qed.

(** ** The elements of an ordinary form *)
Lemma set_nth_zero (raw : list val) i v : i <> 0%nat -> nth_error (set_nth i v raw) 0 = nth_error raw 0.
Proof. intros H. apply nth_set_other. exact H. Qed.
Lemma elems27_keeps at_ raw raw' fe : elems27_decode at_ raw = Ok (raw', fe) -> nth_error raw' 0 = nth_error raw 0.
Proof.
  intros H. unfold elems27_decode in H. step H as r2 E1. step H as sec0 E2. step H as sec E3. destruct (props27_dec at_ sec) as [[sec' props]|] eqn:E4; [|discriminate]. cbn [bind] in H.
  step H as r2' E5. step H as r1 E6. step H as pan E7. step H as ty E8. destruct (negb (is_str ty u_panel)); [discriminate|].
  step H as r2'' E9. step H as ds E10. step H as pidx E11. step H as panl E12. step H as p1 E13. step H as pl1 E14. step H as pd E15. step H as pdl E16.
  destruct (dec_pages [] pdl) as [[[pd' pages] d]|] eqn:E17; [|discriminate]. cbn [bind] in H. step H as p1' E18. step H as s E19. step H as sl E20.
  destruct (dec_section (dec_elem27 pidx (vdepth (VList sl)) pages []) sl d) as [[[s' tree] d']|] eqn:E21; [|discriminate]. cbn [bind] in H. step H as r1' E22. assert (raw' = set_nth 1 r1' (set_nth 2 r2' raw)) as -> by congruence.
  rewrite !nth_set_other by discriminate. reflexivity.
Qed.
Lemma decoder_known at_ v raw more rest : In (at_, v) [(3%nat, u "26"%string); (4%nat, u "27"%string)] -> nth_error raw 0 = Some (VStr v) ->
  decoder_of repr (VStr t0) (VList (VList raw :: more) :: rest) = Ok (t0 ++ 45 :: v, Some (KOrdinary at_ v)).
Proof.
  intros Hv H0. destruct raw as [|x raw]; [discriminate|]. cbn in H0. injection H0 as ->.
  destruct Hv as [[= <- <-]|[[= <- <-]|[]]]; reflexivity.
Qed.
Lemma natlit_known at_ v : In (at_, v) [(3%nat, u "26"%string); (4%nat, u "27"%string)] -> natlit v = true /\ sc (t0 ++ 45 :: v).
Proof. intros [[= <- <-]|[[= <- <-]|[]]]; (split; [reflexivity|]); apply scal_str; unfold scal; cbn [leaves concat app t0 u]; repeat constructor; try lia; reflexivity. Qed.
Lemma sc_ok c : c < 128 -> scalar c. Proof. intros H. split; [lia|unfold is_surrogate; lia]. Qed.
Lemma dget_other v w : ~ In v (map u ["26"; "27"]%string) -> dget (t0 ++ [45] ++ v) decoders = None /\ dget ((t0 ++ [45] ++ v) ++ [45] ++ w) decoders = None.
Proof.
  intros H. assert (K : forall s, s <> u "0-26"%string -> s <> u "0-27"%string -> s <> u "1"%string -> dget s decoders = None).
  { intros s A B C. unfold decoders. cbn [dget]. repeat (match goal with |- context [str_eqb ?a ?b] => destruct (str_eqb a b) eqn:E; [apply str_eqb_spec in E; exfalso; subst; try (apply A; reflexivity); try (apply B; reflexivity); apply C; reflexivity|clear E] end). reflexivity. }
  split; apply K; try discriminate.
  - intros E. apply H. cbn in E. injection E as ->. left. reflexivity.
  - intros E. apply H. cbn in E. injection E as ->. right. left. reflexivity.
  - intros E. cbn in E. destruct v as [|c1 [|c2 [|c3 v]]]; cbn in E; discriminate.
  - intros E. cbn in E. destruct v as [|c1 [|c2 [|c3 v]]]; cbn in E; discriminate.
Qed.
Hypothesis Hrepr : forall v, scal v -> sc (repr v).
Lemma text_of_sc v : scal v -> sc (text_of repr v).
Proof. intros H. destruct v as [|s|l]; cbn [text_of]; try (apply Hrepr; exact H). exact (proj2 (scal_str s) H). Qed.
Lemma no_elements_good : jgood no_elements.
Proof. apply felems_json_good. unfold fe_sc. cbn. repeat split; constructor. Qed.
Lemma ordinary_cycle l : ordinary_is auto old_dec old_enc l -> lsc l -> exists l2, ecycle t0 l l2 l2 l.
Proof.
  intros H Hs. destruct H as [at_ v raw rest props links pages es after Hv H0 Ha F|at_ v raw rest j raw' Hv H0 Ha D N0 J S1 E|v y raw rest Hv Hy].
  - inversion Hs as [|? ? Sr St]; subst. apply scal_lsc in Sr. destruct (through27 F) as (raw' & fe & D & _ & _ & _ & _ & _ & E). destruct (elems27_decode_sc at_ Sr D) as [S1 S2]. pose proof (elems27_keeps _ _ D) as N0.
    destruct (natlit_known Hv) as [Nl Sv]. exists (VList raw' :: rest). exists (t0 ++ 45 :: v), (felems27_json v fe). split; [exact Sv|]. split; [apply felems27_json_good; assumption|]. split; [constructor; [apply scal_list; exact S1|exact St]|]. split.
    + intros r. exists (Some (KOrdinary at_ v)). split; [apply decoder_known; assumption|]. unfold take_elements, elements_out. cbn [vlist bind]. rewrite Ha, D. reflexivity.
    + intros r srcs fname R. unfold put_elements. rewrite (@decoder_known at_ v) by (try exact Hv; congruence). cbn [bind]. rewrite R. cbn [bind elements_back]. rewrite Ha, felems27_back. cbn [bind vlist]. rewrite E. reflexivity.
  - inversion Hs as [|? ? Sr St]; subst. destruct (natlit_known Hv) as [Nl Sv]. exists (VList raw' :: rest). exists (t0 ++ 45 :: v), j. split; [exact Sv|]. split; [exact J|]. split; [constructor; [exact S1|exact St]|]. split.
    + intros r. exists (Some (KOrdinary at_ v)). split; [apply decoder_known; assumption|]. unfold take_elements, elements_out. rewrite Ha, D. reflexivity.
    + intros r srcs fname R. unfold put_elements. rewrite (@decoder_known at_ v) by assumption. cbn [bind]. rewrite R. cbn [bind elements_back]. rewrite Ha, E. reflexivity.
  - exists (VList (VStr v :: y :: raw) :: rest). inversion Hs as [|? ? Sr St]; subst. pose proof Sr as Sr'. apply scal_lsc in Sr'. inversion Sr' as [|? ? Q0 Q1]; subst. inversion Q1 as [|? ? Q2 _]; subst.
    assert (D : exists vs, sc vs /\ forall r, decoder_of repr (VStr t0) (VList (VList (VStr v :: y :: raw) :: rest) :: r) = Ok (vs, None)).
    { assert (Sv : sc (t0 ++ [45] ++ v)) by (apply Forall_app; split; [constructor; [apply sc_ok; reflexivity|constructor]|]; constructor; [apply sc_ok; reflexivity|apply scal_str; exact Q0]).
      destruct Hy as [-> |(z & Hz)].
      - exists (t0 ++ [45] ++ v). split; [exact Sv|]. intros r. unfold decoder_of. cbn [truthy negb vstr bind]. change (dget t0 decoders) with (@None ekind). cbn [vget bind vnth nth_error text_of]. rewrite (proj1 (dget_other [] Hv)). reflexivity.
      - exists ((t0 ++ [45] ++ v) ++ [45] ++ text_of repr z). split; [apply Forall_app; split; [exact Sv|]; constructor; [apply sc_ok; reflexivity|]; apply text_of_sc; eapply scal_vget; eassumption|].
        intros r. unfold decoder_of. cbn [truthy negb vstr bind]. change (dget t0 decoders) with (@None ekind). change (vget (VList (VList (VStr v :: y :: raw) :: rest)) 0) with (@Ok val (VList (VStr v :: y :: raw))). cbn [bind]. change (vget (VList (VStr v :: y :: raw)) 0) with (@Ok val (VStr v)). cbn [bind text_of].
        destruct (dget_other (text_of repr z) Hv) as [-> K]. change (vget (VList (VStr v :: y :: raw)) 1) with (@Ok val y). cbn [bind]. rewrite Hz. cbn [bind]. rewrite K. reflexivity. }
    destruct D as (vs & Sv & D). exists vs, no_elements. split; [exact Sv|]. split; [exact no_elements_good|]. split; [exact Hs|]. split.
    + intros r. exists None. split; [apply D|reflexivity].
    + intros r srcs fname _. unfold put_elements. rewrite D. reflexivity.
Qed.
Lemma ordinary_nonempty l : ordinary_is auto old_dec old_enc l -> exists raw r, l = VList raw :: r.
Proof. destruct 1; eauto. Qed.
End Elements.
