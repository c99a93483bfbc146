(** The file <name>.elem.json of a managed form:
    /repo/src/v8unpack/MetaDataObject/Form/FormCore.py 214-237 (the dictionary that is written), 16-23 of its
    initial values and FormElements4/FormElements4.py 99-113 (what is read back);
    FormElements4/FormElement.py 48-103 (entries of 'data', items of 'tree'), 263-268, 326-351, 375-381.
    Simplification: the file must have the types that an extraction writes and no repeated keys. *)
From Coq Require Import String.
From Verif Require Import PyBase PyInt Utf Brace Header JsonText JsonTextProofs JsonObj Pipeline ObjCode MetaObj MetaObjBase FormElem FormElemBase.
Set Implicit Arguments.
Open Scope list_scope.
Open Scope N_scope.

Definition n_four : list N := [52].
Definition jopt (A : Type) (f : A -> jval) (l : option (list A)) : jval := match l with None => Jnull | Some l => Jlist (map f l) end.
Definition str_key (k : list N) (o : option (list N)) : list (list N * jval) := match o with None => [] | Some s => [(k, Jstr s)] end.

(** ** Written *)
Definition par_json (p : fpar) : jval := Jobj [(k_name, Jstr (pa_name p)); (k_raw, jv (pa_raw p))].
Definition col_json (c : fcol) : jval := Jobj [(k_name, Jstr (co_name c)); (k_id, jv (co_id c)); (k_raw, jv (co_raw c))].
Definition prop_json (p : fprop) : jval :=
  Jobj ([(k_name, Jstr (pr_name p)); (k_id, jv (pr_id p)); (k_raw, jv (pr_raw p))] ++ match pr_cols p with None => [] | Some l => [(k_child, Jlist (map col_json l))] end).
Definition cmd_json (c : fcmd) : jval := Jobj [(k_name, Jstr (cm_name c)); (k_id, jv (cm_id c)); (k_raw, jv (cm_raw c))].
(** 'child' is a key of groups and tables only *)
Fixpoint item_json (x : fitem) : jval :=
  match x with
  | FItem name k child =>
    Jobj ([(k_name, Jstr name); (k_type, Jstr (kind_name k))] ++
          match kids_at k, child with
          | None, None => []
          | Some _, None => [(k_child, Jnull)]
          | _, Some l => [(k_child, Jlist (map item_json l))]
          end)
  end.
Definition edata_json (e : edata) : jval :=
  Jobj ([(k_raw, jv (VList (e_raw e))); (k_ver, Jnum n_four)] ++ str_key k_proplink (e_prop e) ++ str_key k_cmdlink (e_cmd e)).
Definition felems_json (fe : felems) : jval :=
  Jobj [(k_params, jopt par_json (fe_params fe)); (k_props, jopt prop_json (fe_props fe)); (k_commands, jopt cmd_json (fe_commands fe));
        (k_tree, jopt item_json (fe_tree fe)); (k_data, Jobj (map (fun e : list N * edata => (fst e, edata_json (snd e))) (fe_data fe)))].

(** ** Read *)
Definition jdict (j : jval) : res (list (list N * jval)) := match j with Jobj d => Ok d | _ => Err ExtExc end.
Definition jtext (o : option jval) : res (list N) := match o with Some (Jstr s) => Ok s | _ => Err ExtExc end.
Definition jvalu (o : option jval) : res val := match o with Some j => match val_of j with Some v => Ok v | None => Err ExtExc end | None => Err ExtExc end.
Definition jlist_of (A : Type) (f : jval -> res A) (o : option jval) : res (option (list A)) :=
  match o with
  | None | Some Jnull => Ok None
  | Some (Jlist l) => xs <- mapm f l ;; Ok (Some xs)
  | _ => Err ExtExc
  end.
Definition jtext_opt (o : option jval) : res (option (list N)) := match o with None => Ok None | Some (Jstr s) => Ok (Some s) | _ => Err ExtExc end.
Definition par_of (j : jval) : res fpar := d <- jdict j ;; n <- jtext (dget k_name d) ;; r <- jvalu (dget k_raw d) ;; Ok (mkpar n r).
Definition col_of (j : jval) : res fcol := d <- jdict j ;; n <- jtext (dget k_name d) ;; i <- jvalu (dget k_id d) ;; r <- jvalu (dget k_raw d) ;; Ok (mkcol n i r).
Definition prop_of_json (j : jval) : res fprop :=
  d <- jdict j ;; n <- jtext (dget k_name d) ;; i <- jvalu (dget k_id d) ;; r <- jvalu (dget k_raw d) ;; c <- jlist_of col_of (dget k_child d) ;; Ok (mkprop n i r c).
Definition cmd_of_json (j : jval) : res fcmd := d <- jdict j ;; n <- jtext (dget k_name d) ;; i <- jvalu (dget k_id d) ;; r <- jvalu (dget k_raw d) ;; Ok (mkcmd n i r).
(** a dictionary of the tree; [fuel] bounds the nesting *)
Fixpoint jdepth (j : jval) : nat :=
  match j with
  | Jlist l => S (fold_right (fun x n => Nat.max (jdepth x) n) 0%nat l)
  | Jobj d => S (fold_right (fun e n => Nat.max (jdepth (snd e)) n) 0%nat d)
  | _ => 0%nat
  end.
Fixpoint item_of (fuel : nat) (j : jval) : res fitem :=
  match fuel with
  | O => Err Timeout
  | S fuel =>
    d <- jdict j ;; n <- jtext (dget k_name d) ;; t <- jtext (dget k_type d) ;;
    match kind_by kind_name t with
    | None => Err ExtExc
    | Some k => c <- jlist_of (item_of fuel) (dget k_child d) ;; Ok (FItem n k c)
    end
  end.
Definition edata_of (j : jval) : res edata :=
  d <- jdict j ;; r <- jvalu (dget k_raw d) ;; r <- vlist r ;; p <- jtext_opt (dget k_proplink d) ;; c <- jtext_opt (dget k_cmdlink d) ;; Ok (mkedata r p c).
Definition felems_of (j : jval) : res felems :=
  d <- jdict j ;;
  params <- jlist_of par_of (dget k_params d) ;; props <- jlist_of prop_of_json (dget k_props d) ;; cmds <- jlist_of cmd_of_json (dget k_commands d) ;;
  tree <- jlist_of (item_of (jdepth j)) (dget k_tree d) ;;
  dd <- match dget k_data d with Some (Jobj dd) => Ok dd | _ => Err ExtExc end ;;
  data <- mapm (fun e : list N * jval => x <- edata_of (snd e) ;; Ok (fst e, x)) dd ;;
  Ok (mkelems params props cmds tree data).

(** ** Reading what was written *)
Lemma mapm_map (A B : Type) (f : A -> B) (g : B -> res A) l : (forall x, In x l -> g (f x) = Ok x) -> mapm g (map f l) = Ok l.
Proof.
  induction l as [|x l IH]; intros H; [reflexivity|]. cbn [map mapm]. rewrite (H x) by (left; reflexivity). cbn [bind].
  rewrite IH by (intros y Hy; apply H; right; exact Hy). reflexivity.
Qed.
Lemma jlist_jopt (A : Type) (f : A -> jval) (g : jval -> res A) (o : option (list A)) :
  (forall l x, o = Some l -> In x l -> g (f x) = Ok x) -> jlist_of g (Some (jopt f o)) = Ok o.
Proof. destruct o as [l|]; intros H; [|reflexivity]. cbn [jopt jlist_of]. rewrite mapm_map by (intros x Hx; exact (H l x eq_refl Hx)). reflexivity. Qed.
Lemma dget_here (A : Type) k (x : A) d : dget k ((k, x) :: d) = Some x.
Proof. cbn [dget]. rewrite str_eqb_refl. reflexivity. Qed.
Lemma dget_skip (A : Type) k k' (x : A) d : str_eqb k k' = false -> dget k ((k', x) :: d) = dget k d.
Proof. intros E. cbn [dget]. rewrite E. reflexivity. Qed.
Ltac key := repeat (rewrite dget_here || (rewrite dget_skip by reflexivity)).
Lemma jvalu_jv v : jvalu (Some (jv v)) = Ok v.
Proof. cbn [jvalu]. rewrite val_of_jv. reflexivity. Qed.
Lemma par_back p : par_of (par_json p) = Ok p.
Proof. destruct p as [n r]. unfold par_of, par_json. cbn [jdict bind pa_name pa_raw]. key. rewrite jvalu_jv. reflexivity. Qed.
Lemma col_back p : col_of (col_json p) = Ok p.
Proof. destruct p as [n i r]. unfold col_of, col_json. cbn [jdict bind co_name co_id co_raw]. key. rewrite !jvalu_jv. reflexivity. Qed.
Lemma cmd_back p : cmd_of_json (cmd_json p) = Ok p.
Proof. destruct p as [n i r]. unfold cmd_of_json, cmd_json. cbn [jdict bind cm_name cm_id cm_raw]. key. rewrite !jvalu_jv. reflexivity. Qed.
Lemma prop_back p : prop_of_json (prop_json p) = Ok p.
Proof.
  destruct p as [n i r c]. unfold prop_of_json, prop_json. cbn [jdict bind pr_name pr_id pr_raw pr_cols app]. key. rewrite !jvalu_jv. cbn [jtext bind].
  destruct c as [l|].
  - change (jlist_of col_of (Some (Jlist (map col_json l)))) with (jlist_of col_of (Some (jopt col_json (Some l)))). key.
    change (Jlist (map col_json l)) with (jopt col_json (Some l)). rewrite jlist_jopt by (intros; apply col_back). reflexivity.
  - reflexivity.
Qed.
Lemma edata_back e : edata_of (edata_json e) = Ok e.
Proof.
  destruct e as [r p c]. unfold edata_of, edata_json. cbn [jdict bind e_raw e_prop e_cmd app]. key. rewrite jvalu_jv. cbn [bind vlist].
  destruct p as [p|], c as [c|]; cbn [str_key app]; key; reflexivity.
Qed.
Lemma kind_back k : kind_by kind_name (kind_name k) = Some k.
Proof. destruct k; reflexivity. Qed.
Lemma jdepth_list l x : In x l -> (jdepth x < jdepth (Jlist l))%nat.
Proof.
  intros H. cbn [jdepth]. induction l as [|y l IH]; [destruct H|]. cbn [fold_right]. destruct H as [-> | H]; [lia|]. specialize (IH H). lia.
Qed.
Lemma jdepth_obj d (e : list N * jval) : In e d -> (jdepth (snd e) < jdepth (Jobj d))%nat.
Proof.
  intros H. cbn [jdepth]. induction d as [|y l IH]; [destruct H|]. cbn [fold_right]. destruct H as [-> | H]; [lia|]. specialize (IH H). lia.
Qed.
Lemma item_back : forall fuel x, (jdepth (item_json x) <= fuel)%nat -> item_of fuel (item_json x) = Ok x.
Proof.
  induction fuel as [|fuel IH]; intros [n k c] Hf.
  { cbn [item_json jdepth] in Hf. lia. }
  set (tail := match kids_at k, c with None, None => [] | Some _, None => [(k_child, Jnull)] | _, Some l => [(k_child, Jlist (map item_json l))] end : list (list N * jval)).
  assert (E : item_json (FItem n k c) = Jobj ((k_name, Jstr n) :: (k_type, Jstr (kind_name k)) :: tail)) by reflexivity.
  rewrite E in *. cbn [item_of jdict bind]. key. cbn [jtext bind]. rewrite kind_back.
  assert (L : jlist_of (item_of fuel) (dget k_child tail) = Ok c); [|rewrite L; reflexivity].
  destruct c as [l|].
  - assert (T : tail = [(k_child, Jlist (map item_json l))]) by (unfold tail; destruct (kids_at k); reflexivity). rewrite T in *. key.
    change (Jlist (map item_json l)) with (jopt item_json (Some l)). apply jlist_jopt. intros l0 x [= <-] Hx. apply IH.
    pose proof (jdepth_obj ((k_name, Jstr n) :: (k_type, Jstr (kind_name k)) :: [(k_child, Jlist (map item_json l))]) (k_child, Jlist (map item_json l)) (or_intror (or_intror (or_introl eq_refl)))) as D1.
    pose proof (jdepth_list _ _ (in_map item_json _ _ Hx)) as D2. cbn [snd] in D1. lia.
  - unfold tail. destruct (kids_at k); reflexivity.
Qed.
Theorem felems_back fe : felems_of (felems_json fe) = Ok fe.
Proof.
  destruct fe as [pa pr cm tr da]. unfold felems_of.
  set (j := felems_json (mkelems pa pr cm tr da)).
  assert (D : jdict j = Ok [(k_params, jopt par_json pa); (k_props, jopt prop_json pr); (k_commands, jopt cmd_json cm); (k_tree, jopt item_json tr); (k_data, Jobj (map (fun e : list N * edata => (fst e, edata_json (snd e))) da))]) by reflexivity.
  rewrite D. cbn [bind]. key.
  rewrite jlist_jopt by (intros; apply par_back). cbn [bind]. rewrite jlist_jopt by (intros; apply prop_back). cbn [bind]. rewrite jlist_jopt by (intros; apply cmd_back). cbn [bind].
  rewrite jlist_jopt.
  - cbn [bind]. rewrite mapm_map; [reflexivity|]. intros [k e] _. cbn [fst snd]. rewrite edata_back. reflexivity.
  - intros l x -> Hx. apply item_back. pose proof (jdepth_list _ _ (in_map item_json _ _ Hx)) as D2.
    pose proof (jdepth_obj [(k_params, jopt par_json pa); (k_props, jopt prop_json pr); (k_commands, jopt cmd_json cm); (k_tree, jopt item_json (Some l)); (k_data, Jobj (map (fun e : list N * edata => (fst e, edata_json (snd e))) da))] (k_tree, jopt item_json (Some l)) (or_intror (or_intror (or_intror (or_introl eq_refl))))) as D1.
    cbn [snd jopt] in D1. change (jdepth j) with (jdepth (Jobj [(k_params, jopt par_json pa); (k_props, jopt prop_json pr); (k_commands, jopt cmd_json cm); (k_tree, Jlist (map item_json l)); (k_data, Jobj (map (fun e : list N * edata => (fst e, edata_json (snd e))) da))])). lia.
Qed.
