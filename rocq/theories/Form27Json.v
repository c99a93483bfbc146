(** The file <name>.elem.json of an ordinary form of version 26 or 27:
    /repo/src/v8unpack/MetaDataObject/Form/FormCore.py 214-237 and 34-39 (the dictionary that is written; params and
    commands are empty), FormElements27/Panel.py 43-62 (elements), 238-248 and 278-292 (pages), FormElement.py 144-150
    (properties), FormElements27.py 99-107 (what is read back).
    Simplification: the file must have the types that an extraction writes and no repeated keys. *)
From Coq Require Import String.
From Verif Require Import PyBase PyInt Utf Brace Header CalcOffset JsonText JsonTextProofs JsonObj Container Pipeline ObjCode Payload MetaObj MetaObjBase MetaObjGood FormCode FormElem FormElemBase FormJson FormJsonGood Form27.
Set Implicit Arguments.
Open Scope list_scope.
Open Scope N_scope.

Definition k_page : list N := Eval vm_compute in u "page"%string.
Definition k_format : list N := Eval vm_compute in u "page_format_version"%string.
Definition k_info7 : list N := Eval vm_compute in u "info"%string.

(** ** Written *)
Definition prop27_json (p : prop27) : jval := Jobj [(k_name, Jstr (p7_name p)); (k_id, jv (p7_id p)); (k_raw, jv (p7_raw p))].
Definition jstr_opt (o : option (list N)) : jval := match o with Some s => Jstr s | None => Jnull end.
Fixpoint titem_json (x : titem) : jval :=
  match x with
  | TItem name ty page child =>
    Jobj ([(k_name, Jstr name); (k_type, Jstr ty); (k_page, jstr_opt page)] ++ match child with None => [] | Some l => [(k_child, Jlist (map titem_json l))] end)
  end.
Section Ver.
Variable ver : list N.                                   (* 26 or 27 *)
Definition entry_json (e : entry27) : jval :=
  match e with
  | EPage f raw info => Jobj ([(k_ver, Jnum ver); (k_format, jv f); (k_raw, jv raw)] ++ match info with None => [] | Some l => [(k_info7, jv (VList l))] end)
  | EPages names => Jlist (map Jstr names)
  | EElem id page raw prop => Jobj ([(k_id, Jstr id); (k_ver, Jnum ver); (k_page, Jstr page); (k_raw, jv raw)] ++ str_key k_proplink prop)
  end.
Definition felems27_json (fe : felems27) : jval :=
  Jobj [(k_params, Jlist []); (k_props, jopt prop27_json (f7_props fe)); (k_commands, Jlist []); (k_tree, Jlist (map titem_json (f7_tree fe)));
        (k_data, Jobj (map (fun e : list N * entry27 => (fst e, entry_json (snd e))) (f7_data fe)))].
End Ver.

(** ** Read *)
Definition prop27_of (j : jval) : res prop27 := d <- jdict j ;; n <- jtext (dget k_name d) ;; i <- jvalu (dget k_id d) ;; r <- jvalu (dget k_raw d) ;; Ok (mkprop27 n i r).
Definition jnull_text (o : option jval) : res (option (list N)) := match o with None | Some Jnull => Ok None | Some (Jstr s) => Ok (Some s) | _ => Err ExtExc end.
Fixpoint titem_of (fuel : nat) (j : jval) : res titem :=
  match fuel with
  | O => Err Timeout
  | S fuel => d <- jdict j ;; n <- jtext (dget k_name d) ;; t <- jtext (dget k_type d) ;; p <- jnull_text (dget k_page d) ;; c <- jlist_of (titem_of fuel) (dget k_child d) ;; Ok (TItem n t p c)
  end.
Definition entry_of (j : jval) : res entry27 :=
  match j with
  | Jlist l => ns <- mapm (fun x => jtext (Some x)) l ;; Ok (EPages ns)
  | Jobj d =>
    match dget k_format d with
    | Some f => f <- jvalu (Some f) ;; r <- jvalu (dget k_raw d) ;;
                i <- match dget k_info7 d with None => Ok None | Some i => i <- jvalu (Some i) ;; l <- vlist i ;; Ok (Some l) end ;; Ok (EPage f r i)
    | None => i <- jtext (dget k_id d) ;; p <- jtext (dget k_page d) ;; r <- jvalu (dget k_raw d) ;; pr <- jtext_opt (dget k_proplink d) ;; Ok (EElem i p r pr)
    end
  | _ => Err ExtExc
  end.
Definition felems27_of (j : jval) : res felems27 :=
  d <- jdict j ;;
  props <- match dget k_props d with Some p => jlist_of prop27_of (Some p) | None => Err KeyError end ;;
  tree <- match dget k_tree d with Some (Jlist l) => mapm (titem_of (jdepth j)) l | _ => Err ExtExc end ;;
  dd <- match dget k_data d with Some (Jobj dd) => Ok dd | _ => Err ExtExc end ;;
  data <- mapm (fun e : list N * jval => x <- entry_of (snd e) ;; Ok (fst e, x)) dd ;;
  Ok (mkelems27 props tree data).

(** ** Reading what was written *)
Lemma prop27_back p : prop27_of (prop27_json p) = Ok p.
Proof. destruct p as [n i r]. unfold prop27_of, prop27_json. cbn [jdict bind p7_name p7_id p7_raw]. key. rewrite !jvalu_jv. reflexivity. Qed.
Lemma entry_back ver e : entry_of (entry_json ver e) = Ok e.
Proof.
  destruct e as [f raw info|names|id page raw prop]; unfold entry_of, entry_json.
  - cbn [app]. key. rewrite !jvalu_jv. cbn [bind]. destruct info as [l|]; key; [rewrite jvalu_jv; reflexivity|reflexivity].
  - rewrite mapm_map by reflexivity. reflexivity.
  - cbn [app]. key. assert (dget k_format (str_key k_proplink prop) = None) as -> by (destruct prop; reflexivity). cbn [jtext bind]. rewrite jvalu_jv. cbn [bind].
    destruct prop as [p|]; cbn [str_key]; key; reflexivity.
Qed.
Lemma titem_back : forall fuel x, (jdepth (titem_json x) <= fuel)%nat -> titem_of fuel (titem_json x) = Ok x.
Proof.
  induction fuel as [|fuel IH]; intros [n t p c] Hf.
  { cbn [titem_json jdepth] in Hf. lia. }
  set (tail := match c with None => [] | Some l => [(k_child, Jlist (map titem_json l))] end : list (list N * jval)).
  assert (E : titem_json (TItem n t p c) = Jobj ((k_name, Jstr n) :: (k_type, Jstr t) :: (k_page, jstr_opt p) :: tail)) by reflexivity.
  rewrite E in *. cbn [titem_of jdict bind]. key. cbn [jtext bind].
  assert (P : jnull_text (Some (jstr_opt p)) = Ok p) by (destruct p; reflexivity). rewrite P. cbn [bind].
  assert (L : jlist_of (titem_of fuel) (dget k_child tail) = Ok c); [|rewrite L; reflexivity].
  destruct c as [l|]; [|reflexivity]. unfold tail in *. key.
  change (Jlist (map titem_json l)) with (jopt titem_json (Some l)). apply jlist_jopt. intros l0 x [= <-] Hx. apply IH.
  pose proof (jdepth_obj ((k_name, Jstr n) :: (k_type, Jstr t) :: (k_page, jstr_opt p) :: [(k_child, Jlist (map titem_json l))]) (k_child, Jlist (map titem_json l)) (or_intror (or_intror (or_intror (or_introl eq_refl))))) as D1.
  pose proof (jdepth_list _ _ (in_map titem_json _ _ Hx)) as D2. cbn [snd] in D1. lia.
Qed.
Theorem felems27_back ver fe : felems27_of (felems27_json ver fe) = Ok fe.
Proof.
  destruct fe as [pr tr da]. unfold felems27_of. set (j := felems27_json ver (mkelems27 pr tr da)).
  set (d := [(k_params, Jlist []); (k_props, jopt prop27_json pr); (k_commands, Jlist []); (k_tree, Jlist (map titem_json tr)); (k_data, Jobj (map (fun e : list N * entry27 => (fst e, entry_json ver (snd e))) da))]).
  assert (D : jdict j = Ok d) by reflexivity. rewrite D. cbn [bind]. unfold d at 1 2 3. key.
  rewrite jlist_jopt by (intros; apply prop27_back). cbn [bind]. rewrite mapm_map.
  - cbn [bind]. rewrite mapm_map; [reflexivity|]. intros [k e] _. cbn [fst snd]. rewrite entry_back. reflexivity.
  - intros x Hx. apply titem_back. pose proof (jdepth_list _ _ (in_map titem_json _ _ Hx)) as D2.
    pose proof (jdepth_obj d (k_tree, Jlist (map titem_json tr)) (or_intror (or_intror (or_intror (or_introl eq_refl))))) as D1.
    cbn [snd] in D1. change (jdepth j) with (jdepth (Jobj d)). lia.
Qed.

(** ** The strings *)
Definition p7_sc (p : prop27) : Prop := sc (p7_name p) /\ scal (p7_id p) /\ scal (p7_raw p).
Definition e7_sc (e : entry27) : Prop :=
  match e with
  | EPage f raw info => scal f /\ scal raw /\ oall (Forall scal) info
  | EPages names => Forall (fun s => sc s) names
  | EElem id page raw prop => sc id /\ sc page /\ scal raw /\ oall (fun s => sc s) prop
  end.
Inductive t7_sc : titem -> Prop := t7_sc_intro n t p c : sc n -> sc t -> oall (fun s => sc s) p -> (forall l, c = Some l -> Forall t7_sc l) -> t7_sc (TItem n t p c).
Definition d7_sc (d : list (list N * entry27)) : Prop := Forall (fun e => sc (fst e) /\ e7_sc (snd e)) d.
Definition f7_sc (fe : felems27) : Prop := oall (Forall p7_sc) (f7_props fe) /\ Forall t7_sc (f7_tree fe) /\ d7_sc (f7_data fe).
Lemma jgood_null : jgood Jnull. Proof. split; [reflexivity|constructor]. Qed.
Lemma titem_json_good x : t7_sc x -> jgood (titem_json x).
Proof.
  revert x. fix IH 2. intros x H. destruct H as [n t p c Hn Ht Hp Hc]. cbn [titem_json]. apply jgood_obj_of. apply Forall_app. split.
  - pairs; [apply jgood_str, Hn|apply jgood_str, Ht|destruct p; [apply jgood_str, Hp|apply jgood_null]|constructor].
  - destruct c as [l|]; [|constructor]. constructor; [split; [scalars|]|constructor]. apply jgood_list_of. specialize (Hc l eq_refl). clear Hn Ht Hp. induction Hc as [|y l Hy Hl IHl]; cbn [map]; constructor; [apply IH, Hy|exact IHl].
Qed.
Lemma entry_json_good ver e : natlit ver = true -> e7_sc e -> jgood (entry_json ver e).
Proof.
  intros Hv. assert (V : jgood (Jnum ver)) by (split; [exact Hv|constructor]).
  destruct e as [f raw info|names|id page raw prop]; cbn [entry_json e7_sc].
  - intros (H1 & H2 & H3). apply jgood_obj_of. apply Forall_app. split.
    + pairs; [exact V|apply jgood_jv, H1|apply jgood_jv, H2|constructor].
    + destruct info as [l|]; [|constructor]. constructor; [split; [scalars|apply jgood_jv, scal_list, H3]|constructor].
  - intros H. apply jgood_list_of. induction H as [|x l Hx H IH]; cbn [map]; constructor; [apply jgood_str, Hx|exact IH].
  - intros (H1 & H2 & H3 & H4). apply jgood_obj_of. apply Forall_app. split.
    + pairs; [apply jgood_str, H1|exact V|apply jgood_str, H2|apply jgood_jv, H3|constructor].
    + apply str_key_good; [scalars|exact H4].
Qed.
Theorem felems27_json_good ver fe : natlit ver = true -> f7_sc fe -> jgood (felems27_json ver fe).
Proof.
  intros Hv (H1 & H2 & H3). assert (Nl : jgood (Jlist [])) by (apply jgood_list_of; constructor). unfold felems27_json. apply jgood_obj_of. pairs; cbn [snd]; [exact Nl| |exact Nl| | |constructor].
  - apply jgood_opt. eapply oall_imp; [|exact H1]. intros l Hl. eapply Forall_impl; [|exact Hl]. intros p (G1 & G2 & G3). apply jgood_obj_of. pairs; [apply jgood_str, G1|apply jgood_jv, G2|apply jgood_jv, G3|constructor].
  - apply jgood_list_of. induction H2 as [|x l Hx H IH]; cbn [map]; constructor; [apply titem_json_good, Hx|exact IH].
  - apply jgood_obj_of. apply Forall_forall. intros e H. apply in_map_iff in H. destruct H as ([k x] & <- & H). cbn [fst snd]. unfold d7_sc in H3. rewrite Forall_forall in H3. destruct (H3 _ H) as (Hk & Hx). cbn [fst snd] in *.
    split; [exact Hk|apply entry_json_good; assumption].
Qed.
