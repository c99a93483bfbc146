(** The statements about the entry points. *)
From Verif Require Import PyBase PyInt Paths Json UpdateDict OrgCode Driver Spec_Driver DriverProofs.
Set Implicit Arguments.
Open Scope list_scope.

Ltac stage_in := let f := fresh "f" in intros f; apply within_stage;
  [vm_compute; reflexivity|discriminate|repeat (constructor; [discriminate|]); constructor|discriminate|discriminate].

Section Main.
  Variable cwd : path.
  Variable load : disk -> path -> option jdict.
  Variable mkdtemp : disk -> path.
  Variable container_extract decompress : path -> path -> act.
  Variable decode : path -> path -> json -> act.
  Variable unpack pack : path -> path -> option jdict -> json -> act.
  Variable encode : path -> path -> path -> json -> act.
  Variable compress container_build : path -> path -> act.
  Variable base_name : path -> path.
  Variable update_index : json -> json -> json -> act.
  Let extract := extract cwd load mkdtemp container_extract decompress decode unpack.
  Let build := build cwd load mkdtemp pack encode compress container_build base_name.

  Definition no_descent (o : json) : Prop :=
    o = JNull \/ exists d, o = JDict d /\ (dget w_descent d = None \/ dget w_descent d = Some JNull).
  Lemma no_descent_of o : no_descent o -> descent_of (some_options o) = Ok JNull.
  Proof.
    intros [->|(d & -> & H)]; [reflexivity|]. unfold descent_of, some_options.
    change kd_descent with w_descent. destruct H as [->| ->]; reflexivity.
  Qed.

  (** ** extract *)
  Lemma no_stale c n w1 w2 w1' w2' r1 r2 :
    (forall a b, respects (container_extract a b)) -> (forall a b, respects (decompress a b)) ->
    (forall a b o, respects (decode a b o)) -> (forall a b i d, respects (unpack a b i d)) ->
    (forall v1 v2, same_disk v1 v2 -> mkdtemp v1 = mkdtemp v2) ->
    no_descent (a_options c) ->
    check_index (load w1) (a_index c) = check_index (load w2) (a_index c) -> check_index (load w1) (a_index c) <> Ok (Some []) ->
    (forall e, check_index (load w1) (a_index c) <> Err e) ->
    (forall t, a_temp c = Some t -> ~ within (locate cwd t) (locate cwd (a_src c))) ->
    (forall f, ~ within (locate cwd (a_src c)) f -> (forall t, a_temp c = Some t -> ~ within (locate cwd t) f) -> w1 f = w2 f) ->
    w1 (locate cwd (a_src c)) = None -> (forall t, a_temp c = Some t -> w1 (locate cwd t) = None /\ w2 (locate cwd t) = None) ->
    extract c n w1 = (w1', r1) -> extract c n w2 = (w2', r2) -> r1 = r2 /\ same_disk w1' w2'.
  Proof.
    intros R1 R2 R3 R4 Rm Hd Hi Hne Hnerr Hts Hw Hsrc Htmp E1 E2.
    unfold extract, Driver.extract, wrapped in E1, E2. rewrite <- Hi in E2.
    assert (Hs2 : w2 (locate cwd (a_src c)) = None).
    { rewrite <- Hw; [exact Hsrc| |exact Hts]. intros H. apply inside_within in H. rewrite inside_self in H. discriminate. }
    set (f1 := fun f => if inside (locate cwd (a_src c)) f then None else w1 f).
    set (f2 := fun f => if inside (locate cwd (a_src c)) f then None else w2 f).
    assert (Hgo : forall i,
      (wrapped (fun w => match descent_of (some_options (a_options c)) with
        | Err e => (w, Err e)
        | Ok descent =>
          seq (match descent with JNull => clear_dir cwd (a_src c) | _ => ret end)
          (fun w =>
             let t := temp_of mkdtemp (a_temp c) w in
             let stage s := path_join (fst t) s in
             seq (clear_dir cwd (fst t))
             (seq (get_pool n)
             (seq (container_extract (a_bin c) (stage d_stage0))
             (seq (decompress (stage d_stage0) (stage d_stage1))
             (seq (decode (stage d_stage1) (stage d_stage3) (some_options (a_options c)))
             (seq (unpack (stage d_stage3) (a_src c) i descent)
                  (drop_temp cwd t)))))) w) w
        end) w1 = (w1', r1)) ->
      (wrapped (fun w => match descent_of (some_options (a_options c)) with
        | Err e => (w, Err e)
        | Ok descent =>
          seq (match descent with JNull => clear_dir cwd (a_src c) | _ => ret end)
          (fun w =>
             let t := temp_of mkdtemp (a_temp c) w in
             let stage s := path_join (fst t) s in
             seq (clear_dir cwd (fst t))
             (seq (get_pool n)
             (seq (container_extract (a_bin c) (stage d_stage0))
             (seq (decompress (stage d_stage0) (stage d_stage1))
             (seq (decode (stage d_stage1) (stage d_stage3) (some_options (a_options c)))
             (seq (unpack (stage d_stage3) (a_src c) i descent)
                  (drop_temp cwd t)))))) w) w
        end) w2 = (w2', r2)) -> r1 = r2 /\ same_disk w1' w2').
    { clear E1 E2. intros i E1 E2. unfold wrapped in E1, E2. rewrite (no_descent_of Hd) in E1, E2.
      rewrite (@seq_ok (clear_dir cwd (a_src c)) _ w1 f1 (@clear_ok cwd _ w1 Hsrc)) in E1.
      rewrite (@seq_ok (clear_dir cwd (a_src c)) _ w2 f2 (@clear_ok cwd _ w2 Hs2)) in E2.
      cbv zeta in E1, E2.
      assert (Rest : forall t (b : bool), respects (seq (get_pool n)
             (seq (container_extract (a_bin c) (path_join t d_stage0))
             (seq (decompress (path_join t d_stage0) (path_join t d_stage1))
             (seq (decode (path_join t d_stage1) (path_join t d_stage3) (some_options (a_options c)))
             (seq (unpack (path_join t d_stage3) (a_src c) i JNull) (drop_temp cwd (t, b)))))))).
      { intros t b. repeat (apply respects_seq; auto using respects_pool).
        unfold drop_temp. destruct b; cbn [fst snd]; [apply respects_rmtree|apply respects_ret]. }
      assert (Fin : forall (p q : disk * res unit),
        (forall v1 v2 s1 s2, p = (v1, s1) -> q = (v2, s2) -> s1 = s2 /\ same_disk v1 v2) ->
        match p with (w', Ok _) => (w', Ok tt) | (w', Err _) => (w', Err ExtExc) end = (w1', r1) ->
        match q with (w', Ok _) => (w', Ok tt) | (w', Err _) => (w', Err ExtExc) end = (w2', r2) -> r1 = r2 /\ same_disk w1' w2').
      { intros [v1 s1] [v2 s2] H A B. destruct (H _ _ _ _ eq_refl eq_refl) as [Hs Hv]. subst s2.
        destruct s1; apply pair_equal_spec in A; apply pair_equal_spec in B; destruct A as [<- <-], B as [<- <-]; auto. }
      refine (Fin _ _ _ E1 E2). clear E1 E2 Fin. intros v1 v2 s1 s2 E1 E2.
      destruct (a_temp c) as [t|] eqn:Et; cbn [temp_of fst] in E1, E2.
      - destruct (Htmp t eq_refl) as [T1 T2].
        assert (Hc1 : f1 (locate cwd t) = None) by (unfold f1; destruct (inside _ _); [reflexivity|exact T1]).
        assert (Hc2 : f2 (locate cwd t) = None) by (unfold f2; destruct (inside _ _); [reflexivity|exact T2]).
        rewrite (seq_ok _ _ _ (clear_ok _ _ _ Hc1)) in E1. rewrite (seq_ok _ _ _ (clear_ok _ _ _ Hc2)) in E2.
        refine (Rest t false _ _ _ _ _ _ _ E1 E2). intros f. unfold f1, f2.
        destruct (inside (locate cwd t) f) eqn:It; [reflexivity|]. destruct (inside (locate cwd (a_src c)) f) eqn:Is; [reflexivity|].
        apply Hw; [intros H; apply inside_within in H; congruence|]. intros t' Ht' H. injection Ht' as <-. apply inside_within in H. congruence.
      - assert (Hs : same_disk f1 f2).
        { intros f. unfold f1, f2. destruct (inside (locate cwd (a_src c)) f) eqn:Is; [reflexivity|].
          apply Hw; [intros H; apply inside_within in H; congruence|discriminate]. }
        rewrite <- (Rm _ _ Hs) in E2. refine (respects_seq (@respects_clear cwd _) (Rest (mkdtemp f1) true) Hs E1 E2). }
    destruct (check_index (load w1) (a_index c)) as [[[|x i]|]|e] eqn:Ei.
    - exfalso. apply Hne. reflexivity.
    - apply (Hgo (Some (x :: i))); unfold wrapped; assumption.
    - apply (Hgo None); unfold wrapped; assumption.
    - exfalso. exact (Hnerr _ eq_refl).
  Qed.

  Lemma extract_index_error c n w e : check_index (load w) (a_index c) = Err e -> extract c n w = (w, Err ExtExc).
  Proof. intros H. unfold extract, Driver.extract, wrapped. rewrite H. reflexivity. Qed.
  Lemma build_index_error c n w e : check_index (load w) (a_index c) = Err e -> build c n w = (w, Err ExtExc).
  Proof. intros H. unfold build, Driver.build, wrapped. rewrite H. reflexivity. Qed.
  Lemma extract_empty_index c n w : check_index (load w) (a_index c) = Ok (Some []) -> extract c n w = (w, Ok tt).
  Proof. intros H. unfold extract, Driver.extract, wrapped. rewrite H. reflexivity. Qed.
  Lemma build_empty_index c n w : check_index (load w) (a_index c) = Ok (Some []) -> build c n w = (w, Ok tt).
  Proof. intros H. unfold build, Driver.build, wrapped. rewrite H. reflexivity. Qed.

  (** a file that cannot be read costs the sources *)
  Lemma sources_lost c n w w' r t :
    a_index c = [] -> no_descent (a_options c) -> a_temp c = Some t ->
    (forall s, always_fails (container_extract (a_bin c) s)) ->
    (forall s, touches_only (within (locate cwd s)) (container_extract (a_bin c) s)) ->
    w (locate cwd (a_src c)) = None ->
    extract c n w = (w', r) ->
    r = Err ExtExc /\ (forall f, within (locate cwd (a_src c)) f -> ~ within (locate cwd t) f -> w' f = None) /\
    (forall f, ~ within (locate cwd (a_src c)) f -> ~ within (locate cwd t) f -> w' f = w f).
  Proof.
    intros Hi Hd Ht Hf Hto Hs E. unfold extract, Driver.extract in E. rewrite Hi in E. cbn [check_index] in E.
    unfold wrapped in E. rewrite (no_descent_of Hd) in E.
    set (f1 := fun f => if inside (locate cwd (a_src c)) f then None else w f).
    rewrite (@seq_ok (clear_dir cwd (a_src c)) _ w f1 (@clear_ok cwd _ w Hs)) in E.
    cbv zeta in E. rewrite Ht in E. cbn [temp_of fst] in E.
    match type of E with context [seq (clear_dir cwd t) ?k f1] => destruct (seq (clear_dir cwd t) k f1) as [v s] eqn:Es end.
    assert (Hv : (exists e, s = Err e) /\ forall f, ~ within (locate cwd t) f -> v f = f1 f).
    { destruct (seq_cases _ _ _ Es) as [(v1 & A & B)|(e & A & ->)].
      2:{ split; [eauto|]. intros f Hft. exact (@touches_clear cwd t _ _ _ _ A Hft). }
      destruct (seq_cases _ _ _ B) as [(v2 & A2 & B2)|(e & A2 & ->)].
      2:{ split; [eauto|]. intros f Hft. rewrite (@touches_pool (fun _ => False) n _ _ _ f A2 (fun x => x)). exact (@touches_clear cwd t _ _ _ _ A Hft). }
      destruct (Hf (path_join t d_stage0) v2) as (w3 & e & E3).
      rewrite (seq_err _ _ _ E3) in B2. injection B2 as <- <-. split; [eauto|].
      intros f Hft. rewrite (Hto _ _ _ _ f E3).
      - rewrite (@touches_pool (fun _ => False) n _ _ _ f A2 (fun x => x)). exact (@touches_clear cwd t _ _ _ _ A Hft).
      - intros H. apply Hft. revert H. clear. revert f. stage_in. }
    destruct Hv as [(e & ->) Hv]. injection E as <- <-. split; [reflexivity|]. split.
    - intros f Hin Hft. rewrite (Hv f Hft). unfold f1. apply inside_within in Hin. rewrite Hin. reflexivity.
    - intros f Hin Hft. rewrite (Hv f Hft). unfold f1. rewrite (not_inside Hin). reflexivity.
  Qed.

  (** ** build *)
  Definition own_temp (c : call) (w : disk) : path := match a_temp c with Some t => t | None => mkdtemp w end.

  Lemma fst_temp c w : fst (temp_of mkdtemp (a_temp c) w) = own_temp c w.
  Proof. unfold temp_of, own_temp. destruct (a_temp c); reflexivity. Qed.
  Lemma touches_drop c w : touches_only (within (locate cwd (own_temp c w))) (drop_temp cwd (temp_of mkdtemp (a_temp c) w)).
  Proof.
    unfold drop_temp. rewrite fst_temp. destruct (snd (temp_of mkdtemp (a_temp c) w)); [apply touches_rmtree|apply touches_ret].
  Qed.

  Lemma build_cases c n w w' r : build c n w = (w', r) ->
    (w' = w) \/
    exists i d, descent_of (some_options (a_options c)) = d /\
      wrapped (seq (clear_dir cwd (own_temp c w)) (seq (get_pool n) (fun w1 => match d with Err e => (w1, Err e) | Ok d =>
           seq (pack (a_src c) (path_join (own_temp c w) e_stage3) i d)
           (seq (encode (path_join (own_temp c w) e_stage3) (path_join (own_temp c w) e_stage1) (base_name (a_bin c)) (some_options (a_options c)))
           (seq (compress (path_join (own_temp c w) e_stage1) (path_join (own_temp c w) e_stage0))
           (seq (container_build (path_join (own_temp c w) e_stage0) (a_bin c))
                (drop_temp cwd (temp_of mkdtemp (a_temp c) w))))) w1 end))) w = (w', r).
  Proof.
    intros E. unfold build, Driver.build in E. unfold wrapped in E.
    destruct (check_index (load w) (a_index c)) as [[[|x i]|]|e].
    - left. injection E as <- _. reflexivity.
    - right. exists (Some (x :: i)). eexists. split; [reflexivity|]. cbv zeta in E. rewrite fst_temp in E. unfold wrapped. exact E.
    - right. exists None. eexists. split; [reflexivity|]. cbv zeta in E. rewrite fst_temp in E. unfold wrapped. exact E.
    - left. injection E as <- _. reflexivity.
  Qed.

  Section Local.
    Hypothesis Tp : forall a b i d, touches_only (within (locate cwd b)) (pack a b i d).
    Hypothesis Te : forall a b f o, touches_only (within (locate cwd b)) (encode a b f o).
    Hypothesis Tc : forall a b, touches_only (within (locate cwd b)) (compress a b).
    Hypothesis Tb : forall a b, touches_only (fun f => f = locate cwd b) (container_build a b).

    Lemma touches_wrapped P a : touches_only P a -> touches_only P (wrapped a).
    Proof. intros Ha w w' r f E Hf. destruct (wrapped_cases _ _ E) as [[A _]|(e & A & _)]; exact (Ha _ _ _ _ A Hf). Qed.

    Lemma build_touches c n w w' r f : build c n w = (w', r) ->
      ~ within (locate cwd (own_temp c w)) f -> f <> locate cwd (a_bin c) -> w' f = w f.
    Proof.
      intros E Ht Hb. destruct (build_cases _ _ _ E) as [->|(i & d & _ & E')]; [reflexivity|]. clear E. revert E'.
      set (P := fun f => within (locate cwd (own_temp c w)) f \/ f = locate cwd (a_bin c)).
      intros E. assert (HP : ~ P f) by (unfold P; tauto). revert E HP.
      match goal with |- ?a w = _ -> _ => assert (touches_only P a) end.
      { apply touches_wrapped, touches_seq; [eapply touches_mono; [|apply touches_clear]; intros g; unfold P; tauto|].
        apply touches_seq; [apply touches_pool|]. destruct d as [d|e].
        - repeat apply touches_seq.
          + eapply touches_mono; [|apply Tp]. intros g Hg. left. revert g Hg. stage_in.
          + eapply touches_mono; [|apply Te]. intros g Hg. left. revert g Hg. stage_in.
          + eapply touches_mono; [|apply Tc]. intros g Hg. left. revert g Hg. stage_in.
          + eapply touches_mono; [|apply Tb]. intros g Hg. right. exact Hg.
          + eapply touches_mono; [|apply touches_drop]. intros g Hg. left. exact Hg.
        - intros v v' s g Ev _. injection Ev as <- _. reflexivity. }
      intros E HP. exact (H _ _ _ _ E HP).
    Qed.

    Lemma build_fails c n w w' r f :
      (forall a b i d, always_fails (pack a b i d)) \/ (forall a b g o, always_fails (encode a b g o)) \/
      (forall a b, always_fails (compress a b)) ->
      build c n w = (w', r) -> ~ within (locate cwd (own_temp c w)) f -> w' f = w f.
    Proof.
      intros Hfail E Ht. destruct (build_cases _ _ _ E) as [->|(i & d & _ & E')]; [reflexivity|]. clear E. revert E' Ht.
      match goal with |- ?a w = _ -> _ => assert (touches_only (within (locate cwd (own_temp c w))) a) end.
      { apply touches_wrapped, touches_seq; [apply touches_clear|].
        apply touches_seq; [apply touches_pool|]. destruct d as [d|e].
        2:{ intros v v' s g Ev _. injection Ev as <- _. reflexivity. }
        assert (Hp : touches_only (within (locate cwd (own_temp c w))) (pack (a_src c) (path_join (own_temp c w) e_stage3) i d))
          by (eapply touches_mono; [|apply Tp]; stage_in).
        assert (He : touches_only (within (locate cwd (own_temp c w))) (encode (path_join (own_temp c w) e_stage3) (path_join (own_temp c w) e_stage1) (base_name (a_bin c)) (some_options (a_options c))))
          by (eapply touches_mono; [|apply Te]; stage_in).
        assert (Hc : touches_only (within (locate cwd (own_temp c w))) (compress (path_join (own_temp c w) e_stage1) (path_join (own_temp c w) e_stage0)))
          by (eapply touches_mono; [|apply Tc]; stage_in).
        assert (Hfs : forall a b, always_fails a -> touches_only (within (locate cwd (own_temp c w))) a -> touches_only (within (locate cwd (own_temp c w))) (seq a b)).
        { intros a b Ha Hta v v' s g Ev Hg. destruct (Ha v) as (v1 & e & Ea). rewrite (seq_err _ _ _ Ea) in Ev. injection Ev as <- _. exact (Hta _ _ _ _ Ea Hg). }
        destruct Hfail as [Hf|[Hf|Hf]].
        - apply Hfs; auto.
        - apply touches_seq; [exact Hp|]. apply Hfs; auto.
        - apply touches_seq; [exact Hp|]. apply touches_seq; [exact He|]. apply Hfs; auto. }
      intros E Ht. exact (H _ _ _ _ E Ht).
    Qed.
  End Local.

  Lemma build_temp_gone c n w w' i : a_temp c = None -> check_index (load w) (a_index c) = Ok i -> i <> Some [] ->
    build c n w = (w', Ok tt) -> forall f, within (locate cwd (mkdtemp w)) f -> w' f = None.
  Proof.
    intros Ht Hi Hne E f Hf. unfold build, Driver.build in E. destruct (wrapped_cases _ _ E) as [[E1 _]|(e & _ & E1)]; [|discriminate].
    rewrite Hi in E1. clear E. rename E1 into E.
    assert (E' : exists k, seq k (drop_temp cwd (mkdtemp w, true)) = seq k (drop_temp cwd (mkdtemp w, true))) by (exists ret; reflexivity). clear E'.
    assert (Hgo : forall i, (let t := temp_of mkdtemp (a_temp c) w in
        let stage s := path_join (fst t) s in
        seq (clear_dir cwd (fst t))
        (seq (get_pool n)
        (fun w => match descent_of (some_options (a_options c)) with
         | Err e => (w, Err e)
         | Ok descent =>
           seq (pack (a_src c) (stage e_stage3) i descent)
           (seq (encode (stage e_stage3) (stage e_stage1) (base_name (a_bin c)) (some_options (a_options c)))
           (seq (compress (stage e_stage1) (stage e_stage0))
           (seq (container_build (stage e_stage0) (a_bin c))
                (drop_temp cwd t)))) w
         end)) w) = (w', Ok tt) -> w' f = None).
    { clear E i Hi Hne. intros i E. rewrite Ht in E. cbn [temp_of fst] in E. cbv zeta in E.
      destruct (seq_cases _ _ _ E) as [(v1 & _ & B)|(? & _ & ?)]; [|discriminate]. clear E.
      destruct (seq_cases _ _ _ B) as [(v2 & _ & B2)|(? & _ & ?)]; [|discriminate]. clear B.
      destruct (descent_of (some_options (a_options c))) as [d|]; [|discriminate].
      destruct (seq_cases _ _ _ B2) as [(v3 & _ & B3)|(? & _ & ?)]; [|discriminate]. clear B2.
      destruct (seq_cases _ _ _ B3) as [(v4 & _ & B4)|(? & _ & ?)]; [|discriminate]. clear B3.
      destruct (seq_cases _ _ _ B4) as [(v5 & _ & B5)|(? & _ & ?)]; [|discriminate]. clear B4.
      destruct (seq_cases _ _ _ B5) as [(v6 & _ & B6)|(? & _ & ?)]; [|discriminate]. clear B5.
      unfold drop_temp, rmtree in B6. cbn [fst snd] in B6. injection B6 as <-. cbn. apply inside_within in Hf. rewrite Hf. reflexivity. }
    destruct i as [[|x i]|]; [exfalso; apply Hne; reflexivity| |]; exact (Hgo _ E).
  Qed.
End Main.
