(** The main simulation: objects and element lists; then whole files. *)
From Verif Require Import PyBase PyText PyB64 Utf Brace Spec_Brace BraceProofs BraceSim.
Set Implicit Arguments.
Open Scope list_scope.
Open Scope N_scope.

Scheme elems_ok_mut := Induction for elems_ok Sort Prop
  with obj_ok_mut := Induction for obj_ok Sort Prop.
Combined Scheme elems_obj_ind from elems_ok_mut, obj_ok_mut.

Definition start_cv (after : bool) : option (list N) := if after then None else Some [].

Definition safe (rs : list val) (outer : list (list val)) (acc l : list val) : Prop :=
  forall l1 x l2, l = l1 ++ VList x :: l2 -> bigctx rs ((acc ++ l1) :: outer) = true -> has_b64 (VList x) = false.

Lemma safe_cons rs outer acc v l : safe rs outer acc (v :: l) -> safe rs outer (acc ++ [v]) l.
Proof. intros H l1 x l2 -> Hb. apply (H (v :: l1) x l2); [reflexivity|]. rewrite <- app_assoc in Hb. exact Hb. Qed.

Lemma has_b64_elem l x : has_b64 (VList l) = false -> In x l -> has_b64 x = false.
Proof.
  intros H Hin. cbn [has_b64] in H. apply orb_false_iff in H. destruct H as [_ H].
  destruct (has_b64 x) eqn:E; [|reflexivity].
  assert (existsb has_b64 l = true) by (apply existsb_exists; exists x; auto). congruence.
Qed.

Lemma bigctx_cons rs a st : st <> [] -> bigctx rs (a :: st) = bigctx rs st.
Proof.
  intros H. unfold bigctx. cbn [rev]. destruct (rev st) eqn:E; [|reflexivity].
  exfalso; apply H. rewrite <- (rev_involutive st), E. reflexivity.
Qed.

Lemma enc_str_leaf nl s : leaf_ok s -> enc_str nl s = s.
Proof.
  intros (_ & _ & H1 & H2 & H3). unfold enc_str. rewrite H1, H2.
  destruct (Nat.ltb 64 (length s)) eqn:E; [|reflexivity]. apply Nat.ltb_lt in E.
  destruct H3 as [H3|H3]; [lia|]. rewrite H3. reflexivity.
Qed.

Lemma starts_agree p a b : (length p <= length a)%nat -> starts p (a ++ b) = starts p a.
Proof.
  revert a. induction p as [|x p IH]; intros a Ha; [reflexivity|]. destruct a as [|y a]; [cbn in Ha; lia|].
  cbn. rewrite IH by (cbn in Ha; lia). reflexivity.
Qed.
Lemma long_char_plain c : plain_char c /\ c <> OPEN -> plain_char c /\ payload_char c /\ c <> OPEN.
Proof. unfold plain_char, payload_char. intros [H1 H2]. cbn [In] in *. tauto. Qed.

Lemma enc_long nl s : long_leaf s -> enc_str nl s = fold_long nl (S (length s)) s.
Proof.
  intros (_ & H1 & H2 & Hl & Ha). unfold enc_str. rewrite H1, H2. apply Nat.ltb_lt in Hl. rewrite Hl, Ha. reflexivity.
Qed.

Lemma data_of_nonnil s t r : stack s = t :: r -> data_of s <> [].
Proof. intros H. unfold data_of. rewrite H. destruct (roots s); discriminate. Qed.

Lemma plain_last x : plain x -> x <> [] -> last x 0 <> CLOSE.
Proof.
  intros Hp Hne E. assert (Hin : In (last x 0) x).
  { destruct x as [|a l]; [congruence|]. clear. revert a; induction l; intros; [left; reflexivity|right; apply IHl]. }
  unfold plain in Hp. rewrite Forall_forall in Hp. apply Hp in Hin. rewrite E in Hin. apply Hin. cbn; auto.
Qed.

(** a long base64 leaf at the end of an object *)
Lemma cont_long nl x pre T s t r : fold_nl nl -> long_leaf x -> md s = MParam ->
  cv s = Some [] \/ cv s = None -> stack s = t :: r ->
  exists pre', cont pre (enc_str nl x ++ CLOSE :: T) s = cont pre' T (closed (text s) (roots s) r (t ++ [VStr x])).
Proof.
  intros Hnl Hx Hm Hcv Hst. rewrite enc_long by exact Hx. destruct Hx as (Hc & _ & _ & Hl & _).
  cbn [fold_long]. assert (Hl' := Hl). apply Nat.ltb_lt in Hl'. rewrite Hl'.
  rewrite <- !app_assoc.
  assert (Hpl : plain x /\ Forall payload_char x).
  { split; unfold plain; rewrite Forall_forall in *; intros c H; apply Hc in H; apply long_char_plain in H; tauto. }
  destruct Hpl as [Hpl Hpay]. assert (Hok := payload_b64_ok Hpay).
  assert (Hf64 : plain (firstn 64 x)).
  { unfold plain in *. rewrite <- (firstn_skipn 64 x) in Hpl. apply Forall_app in Hpl. tauto. }
  assert (Hne : firstn 64 x <> []).
  { intros H. apply (f_equal (@length N)) in H. rewrite firstn_length in H. cbn [length] in H. lia. }
  rewrite cont_plain by assumption.
  set (s1 := mkst MParam (text s) (roots s) (stack s) (cat_cv (cv s) (firstn 64 x)) (Some [last (firstn 64 x) 0])).
  assert (Hcv1 : cv s1 = Some (firstn 64 x)) by (unfold s1, cat_cv; cbn; destruct Hcv as [->| ->]; reflexivity).
  assert (Hpc1 : is_pc CLOSE s1 = false).
  { unfold is_pc, s1. cbn [pc]. apply str_eqb_neq. intros E. apply (plain_last Hf64 Hne). congruence. }
  assert (Hlen64 : length (firstn 64 x) = 64%nat) by (rewrite firstn_length; lia).
  set (s2 := set_md MB64 s1).
  set (Y := fold_long nl (length x) (skipn 64 x) ++ CLOSE :: T).
  assert (HY : exists c Y', Y = c :: Y' /\ c <> OPEN /\ c <> CLOSE /\ c <> LF).
  { assert (Hsk : exists c y, skipn 64 x = c :: y).
    { destruct (skipn 64 x) eqn:E; [|eauto]. apply (f_equal (@length N)) in E. rewrite skipn_length in E. cbn in E. lia. }
    destruct Hsk as (c & y & Hsk).
    assert (Hinx : In c x) by (rewrite <- (firstn_skipn 64 x), Hsk; apply in_or_app; right; left; reflexivity).
    assert (Hcc : plain_char c /\ c <> OPEN) by (rewrite Forall_forall in Hc; auto).
    apply long_char_plain in Hcc. destruct Hcc as (Hp1 & Hp2 & Hp3).
    exists c. destruct (length x) as [|n] eqn:En; [lia|].
    assert (exists Y', Y = c :: Y') as [Y' HY'].
    { unfold Y. cbn [fold_long]. rewrite Hsk. destruct (Nat.ltb 64 (length (c :: y))); cbn [firstn app]; eauto. }
    exists Y'. split; [exact HY'|]. split; [exact Hp3|].
    split; intros ->; [apply Hp2|apply Hp1]; cbn; auto. }
  assert (Hgo : run_lines (lines Y) s2 = run_lines (lines (tl nl ++ Y)) s1).
  { destruct HY as (c & Y' & HYe & Ho & Hcl & Hlf).
    apply N.eqb_neq in Ho, Hcl, Hlf.
    destruct Hnl as [->| ->]; cbn [tl app].
    - rewrite HYe. rewrite !lines_first by discriminate. cbn [run_lines].
      enough (Hk : decode_line (fst (first_line (c :: Y'))) s1 = decode_line (fst (first_line (c :: Y'))) s2) by (rewrite Hk; reflexivity).
      assert (HL : exists L', fst (first_line (c :: Y')) = c :: L').
      { cbn [first_line]. rewrite Hlf. destruct (first_line Y'); cbn; eauto. }
      destruct HL as [L' HL]. rewrite HL. unfold decode_line. cbn [md set_md s1 s2].
      unfold line_param. rewrite Ho, Hcl. cbv zeta. rewrite Hcv1, Hlf. cbn [andb].
      destruct (data_of s1) as [|d0 ds] eqn:Ed; [exfalso; eapply data_of_nonnil with (s := s1); eauto|].
      replace (match firstn 64 x with [] => true | _ => false end) with false by (destruct (firstn 64 x); [congruence|reflexivity]).
      rewrite andb_false_r. rewrite Hlen64. reflexivity.
    - cbn [lines]. change (LF =? LF) with true. cbv iota. cbn [run_lines].
      enough (Hk : decode_line [LF] s1 = Ok s2) by (rewrite Hk; reflexivity).
      unfold decode_line. cbn [md s1].
      unfold line_param. change (LF =? OPEN) with false. change (LF =? CLOSE) with false. change (LF =? LF) with true. cbv iota zeta.
      rewrite Hcv1, Hlen64. reflexivity. }
  destruct (@long_lines nl T t r Hnl (length x) (skipn 64 x) s2 (firstn 64 x)) as [p Hp].
  - rewrite skipn_length. lia.
  - apply b64_ok_skipn; exact Hok.
  - reflexivity.
  - exact Hcv1.
  - exact Hpc1.
  - exact Hst.
  - exists p. fold Y in Hp. rewrite Hgo in Hp. rewrite firstn_skipn in Hp. cbn [text roots set_md s1 s2] in Hp.
    rewrite <- Hp.
    replace (nl ++ Y) with (LF :: tl nl ++ Y) by (clear -Hnl; destruct Hnl as [->| ->]; reflexivity).
    apply cont_lf_param. reflexivity.
Qed.

Lemma enc_elems_cons nl x t : enc_elems nl (x :: t) =
  enc_val nl x ++ match t with [] => if is_list x then [LF] else [] | _ => COMMA :: enc_elems nl t end.
Proof. reflexivity. Qed.
Lemma enc_val_list nl l : enc_val nl (VList l) = LF :: OPEN :: enc_elems nl l ++ [CLOSE].
Proof. reflexivity. Qed.

Definition P_elems (nl : list N) (after : bool) (l : list val) : Prop :=
  forall pre T s acc outer, md s = MParam -> cv s = start_cv after -> is_pc CLOSE s = false -> stack s = acc :: outer ->
  safe (roots s) outer acc l ->
  l <> [] ->
  exists pre', cont pre (enc_elems nl l ++ CLOSE :: T) s = cont pre' T (closed (text s) (roots s) outer (acc ++ l)).
Definition P_obj (nl : list N) (l : list val) : Prop :=
  forall T s, md s = MParam -> is_pc CLOSE s = false ->
  safe (roots s) (stack s) [] l ->
  (bigctx (roots s) (stack s) = true -> has_b64 (VList l) = false) ->
  exists pre', run_lines (lines (OPEN :: enc_elems nl l ++ CLOSE :: T)) s =
               cont pre' T (closed (text s) (roots s) (stack s) l).

(** after a separated leaf, go on with the rest *)
Lemma leaf_step nl m v x t (IH : P_elems nl false t) : forall pre T s acc outer,
  m = MParam \/ m = MEnd -> md s = m -> is_pc CLOSE s = false -> stack s = acc :: outer -> cv s = v -> oval v = x ->
  safe (roots s) outer acc (x :: t) ->
  exists pre', cont pre (match t with [] => [] | _ => COMMA :: enc_elems nl t end ++ CLOSE :: T) s =
               cont pre' T (closed (text s) (roots s) outer (acc ++ x :: t)).
Proof.
  intros pre T s acc outer Hm Hm' Hpc Hst Hcv Hx Hsafe. subst m x.
  destruct t as [|y t].
  - exists (pre ++ [CLOSE]). cbn [app]. apply cont_close; [exact Hm|]. rewrite (end_object_ok s Hpc Hst). rewrite Hcv. reflexivity.
  - cbn [app]. erewrite cont_comma; [|exact Hm|eapply end_value_ok; eassumption].
    destruct (IH (pre ++ [COMMA]) T (mkst MParam (text s) (roots s) ((acc ++ [oval (cv s)]) :: outer) (Some []) (Some [COMMA])) (acc ++ [oval (cv s)]) outer)
      as [p Hp]; try reflexivity; [|discriminate|].
    + cbn [roots]. apply safe_cons. rewrite Hcv. exact Hsafe.
    + exists p. rewrite Hp. cbn [text roots]. rewrite <- app_assoc, Hcv. reflexivity.
Qed.

Lemma sim nl : fold_nl nl -> (forall b l, elems_ok b l -> P_elems nl b l) /\ (forall l, obj_ok l -> P_obj nl l).
Proof.
  intros Hnl. apply elems_obj_ind; unfold P_elems, P_obj.
  - congruence.
  - (* None after an object *)
    intros t _ IH pre T s acc outer Hm Hcv Hpc Hst Hsafe _.
    rewrite enc_elems_cons. cbn [enc_val is_list app].
    apply (@leaf_step nl MParam None VNone t IH); auto.
  - (* '' *)
    intros t _ IH pre T s acc outer Hm Hcv Hpc Hst Hsafe _.
    rewrite enc_elems_cons. cbn [enc_val is_list app]. change (enc_str nl []) with (@nil N). cbn [app].
    apply (@leaf_step nl MParam (Some []) (VStr []) t IH); auto.
  - (* leaf *)
    intros b x t Hx _ IH pre T s acc outer Hm Hcv Hpc Hst Hsafe _.
    rewrite enc_elems_cons. cbn [enc_val is_list]. rewrite enc_str_leaf by exact Hx. rewrite <- app_assoc.
    destruct Hx as (Hne & Hpq & _).
    assert (Hsep : exists c R, match t with [] => [] | _ => COMMA :: enc_elems nl t end ++ CLOSE :: T = c :: R /\ sep c).
    { destruct t; cbn [app]; eexists; eexists; (split; [reflexivity|]); [right|left]; reflexivity. }
    destruct Hsep as (c & R & HR & Hc). rewrite HR.
    destruct (cont_leaf Hne Hpq Hc pre R s Hm) as (p & m & q & -> & Hmm & Hq).
    rewrite <- HR.
    assert (Hcv2 : cv (leaf_state m x q s) = Some x).
    { unfold leaf_state, cat_cv. cbn. rewrite Hcv. destruct b; reflexivity. }
    destruct (@leaf_step nl m (Some x) (VStr x) t IH p T (leaf_state m x q s) acc outer) as [p' Hp']; auto.
    + unfold is_pc, leaf_state. cbn [pc]. apply str_eqb_neq. congruence.
    + exists p'. exact Hp'.
  - (* long leaf, last *)
    intros b x Hx pre T s acc outer Hm Hcv Hpc Hst Hsafe _.
    rewrite enc_elems_cons. cbn [enc_val is_list]. rewrite app_nil_r.
    apply cont_long; try assumption. rewrite Hcv. destruct b; auto.
  - (* object *)
    intros b l t Hl IHl _ IHt pre T s acc outer Hm Hcv Hpc Hst Hsafe _.
    rewrite enc_elems_cons, enc_val_list. cbn [is_list]. cbn [app].
    rewrite cont_lf_param by exact Hm.
    set (Z := match t with [] => [LF] | _ :: _ => COMMA :: enc_elems nl t end).
    replace (((enc_elems nl l ++ [CLOSE]) ++ Z) ++ CLOSE :: T) with (enc_elems nl l ++ CLOSE :: (Z ++ CLOSE :: T)).
    2: { rewrite <- !app_assoc. reflexivity. }
    destruct (IHl (Z ++ CLOSE :: T) s Hm Hpc) as [p Hp].
    + intros l1 x l2 -> Hb. rewrite bigctx_cons in Hb by (rewrite Hst; discriminate).
      assert (H : has_b64 (VList (l1 ++ VList x :: l2)) = false).
      { apply (Hsafe [] _ t); [reflexivity|]. rewrite app_nil_r, <- Hst. exact Hb. }
      apply (has_b64_elem _ (VList x) H). apply in_or_app; right; left; reflexivity.
    + intros Hb. apply (Hsafe [] l t); [reflexivity|]. rewrite app_nil_r, <- Hst. exact Hb.
    + rewrite Hp. rewrite Hst. unfold closed at 1. cbn [push fst snd].
      unfold Z. destruct t as [|y t].
      * cbn [app]. rewrite cont_lf_param by reflexivity.
        (* the closing brace on its own line *)
        rewrite lines_first by discriminate. cbn [run_lines first_line]. change (CLOSE =? LF) with false. cbv iota.
        destruct (first_line T) as [cur more] eqn:Ef. cbn [fst snd].
        unfold decode_line at 1. cbn [md]. unfold line_param. change (CLOSE =? OPEN) with false. change (CLOSE =? CLOSE) with true. cbv iota.
        erewrite end_object_after; [|reflexivity|reflexivity]. cbn [bind text roots].
        exists []. unfold cont, decode_object. rewrite Ef. reflexivity.
      * cbn [app]. erewrite cont_comma; [|left; reflexivity|].
        2: { unfold end_value, is_pc. cbn. reflexivity. }
        destruct (IHt (p ++ [COMMA]) T (mkst MParam (text s) (roots s) ((acc ++ [VList l]) :: outer) None (Some [COMMA])) (acc ++ [VList l]) outer)
          as [p' Hp']; try reflexivity; [|discriminate|].
        -- cbn [roots]. apply safe_cons. exact Hsafe.
        -- exists p'. rewrite Hp'. cbn [text roots]. rewrite <- app_assoc. reflexivity.
  - (* binary object *)
    intros x Hx T s Hm Hpc _ Hbig.
    rewrite enc_elems_cons. cbn [enc_val is_list]. rewrite app_nil_r.
    assert (Hh : has_b64 (VList [VStr x]) = true).
    { cbn [has_b64]. destruct Hx as [(Hx & _)|(Hx & _)]; rewrite Hx; rewrite ?orb_true_r; reflexivity. }
    assert (bigctx (roots s) (stack s) = false).
    { destruct (bigctx (roots s) (stack s)); [|reflexivity]. rewrite Hbig in Hh by reflexivity. discriminate. }
    destruct Hx as [Hx|Hx]; [apply obj_folded|apply obj_line]; assumption.
  - (* ordinary object *)
    intros l Hne Hfirst Hel IH T s Hm Hpc Hsafe Hbig.
    rewrite open_plain; [|exact Hm|destruct (enc_elems nl l); discriminate|].
    2: { assert (Hh : ~ In COMMA hash_base64 /\ ~ In CLOSE hash_base64 /\ ~ In LF hash_base64) by (cbn; intuition discriminate).
         destruct Hh as (Hh1 & Hh2 & Hh3).
         destruct l as [|x t]; [congruence|]. rewrite enc_elems_cons.
         destruct x as [|x|x]; cbn [is_list].
         - inversion Hel.
         - cbn [first_ok] in Hfirst. inversion Hel as [| | |? ? ? Hx|? ? Hx|]; subst.
           + destruct t; reflexivity.
           + cbn [enc_val]. rewrite enc_str_leaf by exact Hx. rewrite <- app_assoc.
             destruct t; cbn [app]; rewrite starts_sep; assumption.
           + cbn [enc_val]. rewrite enc_long by exact Hx. destruct Hx as (_ & _ & _ & Hlx & _).
             cbn [fold_long]. assert (Hl2 := Hlx). apply Nat.ltb_lt in Hl2. rewrite Hl2. rewrite <- !app_assoc.
             rewrite starts_agree by (rewrite firstn_length; cbn [length hash_base64]; lia).
             rewrite <- (firstn_skipn 64 x) in Hfirst. rewrite starts_agree in Hfirst by (rewrite firstn_length; cbn [length hash_base64]; lia). exact Hfirst.
         - rewrite enc_val_list. reflexivity. }
    destruct (IH [] T (opened s) [] (stack s)) as [p Hp]; try assumption; try reflexivity.
    exists p. rewrite Hp. reflexivity.
Qed.
