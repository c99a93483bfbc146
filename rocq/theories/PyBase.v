(** Base library: Python values as Coq values.
    str and bytes are [list N]; int is [Z]; exceptions are values.
    This file models only the Python language/standard library, not /repo. *)
From Coq Require Export List ZArith NArith Lia Bool.
From Coq Require Import String Ascii.
From Coq Require Export ZifyBool ZifyNat ZifyN.
Export ListNotations.
Set Implicit Arguments.
Open Scope Z_scope.
Ltac Zify.zify_post_hook ::= Z.div_mod_to_equations.

Notation str := (list N) (only parsing).
Notation bytes := (list N) (only parsing).

(** Exceptions that the modelled code can raise. *)
Inductive exn :=
| StructError | ValueError | OverflowError | AttributeError | KeyError | IndexError
| TypeError | IOError | EOFError | BufferError | NotImplementedError | ZeroDivisionError
| UnicodeDecodeError | UnicodeEncodeError | FileNotFoundError | PermissionError
| FileExistsError | NotADirectoryError | AssertionError | BigBase64 | ExtExc | GenericException
| Timeout.  (* not a Python exception: the fuel of the model ran out *)

Inductive res (A : Type) := Ok (a : A) | Err (e : exn).
Arguments Ok {A} a.
Arguments Err {A} e.

Definition bind {A B} (r : res A) (f : A -> res B) : res B :=
  match r with Ok a => f a | Err e => Err e end.
Notation "x <- r ;; k" := (bind r (fun x => k)) (at level 61, r at next level, right associativity).
Notation "' p <- r ;; k" := (bind r (fun x => match x with p => k end))
  (at level 61, p pattern, r at next level, right associativity).

Definition is_ok {A} (r : res A) : bool := match r with Ok _ => true | Err _ => false end.

(** ** Literals: UTF-8 decoding of a Coq string literal. *)
Fixpoint string_bytes (s : string) : list N :=
  match s with
  | EmptyString => []
  | String a s' => N_of_ascii a :: string_bytes s'
  end.

Fixpoint utf8_lit (bs : list N) : list N :=
  match bs with
  | [] => []
  | a :: t =>
    if (a <? 128)%N then a :: utf8_lit t
    else match t with
      | b :: t2 =>
        if (a <? 224)%N then ((a - 192) * 64 + (b - 128))%N :: utf8_lit t2
        else match t2 with
          | c :: t3 => ((a - 224) * 4096 + (b - 128) * 64 + (c - 128))%N :: utf8_lit t3
          | [] => []
          end
      | [] => []
      end
  end.

Definition u (s : string) : list N := utf8_lit (string_bytes s).

(** ** Equality on strings *)
Fixpoint str_eqb (a b : list N) : bool :=
  match a, b with
  | [], [] => true
  | x :: a', y :: b' => N.eqb x y && str_eqb a' b'
  | _, _ => false
  end.

Lemma str_eqb_spec a b : str_eqb a b = true <-> a = b.
Proof.
  revert b; induction a as [|x a IH]; intros [|y b]; cbn; try (split; congruence).
  rewrite andb_true_iff, N.eqb_eq, IH. split.
  - intros [-> ->]; reflexivity.
  - intros H; injection H as -> ->; auto.
Qed.
Lemma str_eqb_refl a : str_eqb a a = true.
Proof. apply str_eqb_spec; reflexivity. Qed.
Lemma str_eqb_neq a b : str_eqb a b = false <-> a <> b.
Proof.
  destruct (str_eqb a b) eqn:E.
  - apply str_eqb_spec in E. split; congruence.
  - split; [intros _ H|reflexivity]. apply str_eqb_spec in H. congruence.
Qed.
Definition str_eq_dec (a b : list N) : {a = b} + {a <> b} := list_eq_dec N.eq_dec a b.

(** ** Integer-indexed lists *)
Definition zlen {A} (l : list A) : Z := Z.of_nat (List.length l).
Definition ztake {A} (n : Z) (l : list A) : list A := firstn (Z.to_nat n) l.
Definition zdrop {A} (n : Z) (l : list A) : list A := skipn (Z.to_nat n) l.
Definition zeros (n : Z) : list N := repeat 0%N (Z.to_nat n).

Lemma zlen_nil {A} : zlen (@nil A) = 0. Proof. reflexivity. Qed.
Lemma zlen_cons {A} (x : A) l : zlen (x :: l) = 1 + zlen l.
Proof. unfold zlen; cbn [List.length]; lia. Qed.
Lemma zlen_app {A} (a b : list A) : zlen (a ++ b) = zlen a + zlen b.
Proof. unfold zlen; rewrite app_length; lia. Qed.
Lemma zlen_nonneg {A} (l : list A) : 0 <= zlen l.
Proof. unfold zlen; lia. Qed.
Lemma zlen_zeros n : zlen (zeros n) = Z.max 0 n.
Proof. unfold zlen, zeros; rewrite repeat_length; lia. Qed.
Lemma zlen_ztake {A} n (l : list A) : zlen (ztake n l) = Z.max 0 (Z.min n (zlen l)).
Proof. unfold zlen, ztake; rewrite firstn_length; lia. Qed.
Lemma zlen_zdrop {A} n (l : list A) : zlen (zdrop n l) = Z.max 0 (zlen l - Z.max 0 n).
Proof. unfold zlen, zdrop; rewrite skipn_length; lia. Qed.
Lemma zlen_0 {A} (l : list A) : zlen l = 0 -> l = [].
Proof. destruct l; [reflexivity|]. rewrite zlen_cons. pose proof (zlen_nonneg l); lia. Qed.
Lemma zlen_map {A B} (f : A -> B) l : zlen (map f l) = zlen l.
Proof. unfold zlen; rewrite map_length; reflexivity. Qed.
Lemma zlen_repeat {A} (x : A) n : zlen (repeat x n) = Z.of_nat n.
Proof. unfold zlen; rewrite repeat_length; reflexivity. Qed.

Lemma ztake_drop {A} n (l : list A) : ztake n l ++ zdrop n l = l.
Proof. apply firstn_skipn. Qed.
Lemma ztake_app_exact {A} n (a b : list A) : zlen a = n -> ztake n (a ++ b) = a.
Proof.
  intros <-; unfold ztake, zlen; rewrite Nat2Z.id, firstn_app, Nat.sub_diag, firstn_all.
  cbn; apply app_nil_r.
Qed.
Lemma zdrop_app_exact {A} n (a b : list A) : zlen a = n -> zdrop n (a ++ b) = b.
Proof.
  intros <-; unfold zdrop, zlen; rewrite Nat2Z.id, skipn_app, Nat.sub_diag, skipn_all.
  reflexivity.
Qed.
Lemma ztake_all {A} n (l : list A) : zlen l <= n -> ztake n l = l.
Proof. unfold zlen, ztake; intros; apply firstn_all2; lia. Qed.
Lemma zdrop_all {A} n (l : list A) : zlen l <= n -> zdrop n l = [].
Proof. unfold zlen, zdrop; intros; apply skipn_all2; lia. Qed.
Lemma ztake_0 {A} n (l : list A) : n <= 0 -> ztake n l = [].
Proof. unfold ztake; intros; replace (Z.to_nat n) with O by lia; reflexivity. Qed.
Lemma zdrop_0 {A} n (l : list A) : n <= 0 -> zdrop n l = l.
Proof. unfold zdrop; intros; replace (Z.to_nat n) with O by lia; reflexivity. Qed.
Lemma ztake_app_le {A} n (a b : list A) : n <= zlen a -> ztake n (a ++ b) = ztake n a.
Proof.
  unfold ztake, zlen; intros. rewrite firstn_app.
  replace (Z.to_nat n - List.length a)%nat with O by lia. cbn; apply app_nil_r.
Qed.
Lemma ztake_app_ge {A} n (a b : list A) : zlen a <= n -> ztake n (a ++ b) = a ++ ztake (n - zlen a) b.
Proof.
  unfold ztake, zlen; intros. rewrite firstn_app, firstn_all2 by lia.
  f_equal; f_equal; lia.
Qed.
Lemma zdrop_app_le {A} n (a b : list A) : n <= zlen a -> zdrop n (a ++ b) = zdrop n a ++ b.
Proof.
  unfold zdrop, zlen; intros. rewrite skipn_app.
  replace (Z.to_nat n - List.length a)%nat with O by lia. reflexivity.
Qed.
Lemma zdrop_app_ge {A} n (a b : list A) : zlen a <= n -> zdrop n (a ++ b) = zdrop (n - zlen a) b.
Proof.
  unfold zdrop, zlen; intros. rewrite skipn_app, skipn_all2 by lia.
  cbn; f_equal; lia.
Qed.
Lemma skipn_skipn' {A} n : forall m (l : list A), skipn m (skipn n l) = skipn (n + m) l.
Proof.
  induction n as [|n IH]; intros m l; [reflexivity|].
  destruct l as [|x l]; cbn; [destruct m; reflexivity|apply IH].
Qed.
Lemma zdrop_zdrop {A} m n (l : list A) : 0 <= m -> 0 <= n -> zdrop m (zdrop n l) = zdrop (m + n) l.
Proof.
  unfold zdrop; intros. rewrite skipn_skipn'. f_equal; lia.
Qed.
Lemma zeros_nil n : n <= 0 -> zeros n = [].
Proof. unfold zeros; intros; replace (Z.to_nat n) with O by lia; reflexivity. Qed.
Lemma zeros_add a b : 0 <= a -> 0 <= b -> zeros (a + b) = zeros a ++ zeros b.
Proof. unfold zeros; intros. rewrite Z2Nat.inj_add by lia. apply repeat_app. Qed.

(** ** Strings *)
Fixpoint starts (p s : list N) : bool :=
  match p, s with
  | [], _ => true
  | x :: p', y :: s' => N.eqb x y && starts p' s'
  | _ :: _, [] => false
  end.

Lemma starts_spec p s : starts p s = true <-> exists t, s = p ++ t.
Proof.
  revert s; induction p as [|x p IH]; intros s.
  - cbn; split; [exists s; reflexivity|reflexivity].
  - destruct s as [|y s]; cbn.
    + split; [discriminate|intros [t H]; discriminate].
    + rewrite andb_true_iff, N.eqb_eq, IH. split.
      * intros [-> [t ->]]; exists t; reflexivity.
      * intros [t H]; injection H as -> ->; split; [reflexivity|exists t; reflexivity].
Qed.
Lemma starts_app p t : starts p (p ++ t) = true.
Proof. apply starts_spec; exists t; reflexivity. Qed.

Definition ends (p s : list N) : bool := starts (rev p) (rev s).
Lemma ends_spec p s : ends p s = true <-> exists t, s = t ++ p.
Proof.
  unfold ends; rewrite starts_spec; split.
  - intros [t H]. exists (rev t). rewrite <- (rev_involutive s), H, rev_app_distr, rev_involutive; reflexivity.
  - intros [t ->]. exists (rev t). apply rev_app_distr.
Qed.

(** str.find(sub): index of the first occurrence *)
Fixpoint find_sub (p s : list N) : option nat :=
  if starts p s then Some O
  else match s with
    | [] => None
    | _ :: s' => match find_sub p s' with Some n => Some (S n) | None => None end
    end.

(** str.find(ch) *)
Fixpoint find_ch (c : N) (s : list N) : option nat :=
  match s with
  | [] => None
  | x :: s' => if N.eqb x c then Some O
               else match find_ch c s' with Some n => Some (S n) | None => None end
  end.

Definition mem_ch (c : N) (s : list N) : bool := existsb (N.eqb c) s.

Definition cons_first {A} (c : A) (l : list (list A)) : list (list A) :=
  match l with [] => [[c]] | x :: l' => (c :: x) :: l' end.

(** s.split(sep) for a one-character separator *)
Fixpoint split_ch (sep : N) (s : list N) : list (list N) :=
  match s with
  | [] => [[]]
  | c :: s' => if N.eqb c sep then [] :: split_ch sep s' else cons_first c (split_ch sep s')
  end.

(** s.split(sep) for a longer separator: leftmost non-overlapping matches.
    [skip] counts the characters of the current match still to be passed over. *)
Fixpoint split_go (sep : list N) (skip : nat) (s : list N) : list (list N) :=
  match s with
  | [] => [[]]
  | c :: s' =>
    match skip with
    | S k => split_go sep k s'
    | O => if starts sep s then [] :: split_go sep (List.length sep - 1) s'
           else cons_first c (split_go sep O s')
    end
  end.
Definition split_str (sep s : list N) : list (list N) := split_go sep O s.

(** sep.join(parts) *)
Fixpoint join (sep : list N) (parts : list (list N)) : list N :=
  match parts with
  | [] => []
  | [p] => p
  | p :: rest => p ++ sep ++ join sep rest
  end.

Lemma split_ch_nonnil sep s : split_ch sep s <> [].
Proof. destruct s as [|c s]; cbn; [discriminate|]. destruct (N.eqb c sep); [discriminate|].
  destruct (split_ch sep s); discriminate. Qed.

Lemma join_cons sep p rest : rest <> [] -> join sep (p :: rest) = p ++ sep ++ join sep rest.
Proof. destruct rest; [congruence|reflexivity]. Qed.

Lemma join_cons_first sep c l : l <> [] -> join sep (cons_first c l) = c :: join sep l.
Proof. destruct l as [|x [|y l]]; cbn; congruence. Qed.

Lemma join_split_ch sep s : join [sep] (split_ch sep s) = s.
Proof.
  induction s as [|c s IH]; [reflexivity|]. cbn [split_ch].
  destruct (N.eqb_spec c sep) as [->|Hne].
  - rewrite join_cons by apply split_ch_nonnil. rewrite IH; reflexivity.
  - rewrite join_cons_first by apply split_ch_nonnil. rewrite IH; reflexivity.
Qed.

Lemma split_ch_app_nosep sep p s :
  ~ In sep p -> split_ch sep (p ++ s) =
    match split_ch sep s with [] => [p] | x :: l => (p ++ x) :: l end.
Proof.
  intros Hp; induction p as [|c p IH]; cbn [app split_ch].
  - destruct (split_ch sep s) eqn:E; [exfalso; revert E; apply split_ch_nonnil|reflexivity].
  - destruct (N.eqb_spec c sep) as [->|Hne]; [exfalso; apply Hp; left; reflexivity|].
    rewrite IH by (intros H; apply Hp; right; exact H).
    destruct (split_ch sep s); reflexivity.
Qed.

Lemma split_ch_nosep sep p : ~ In sep p -> split_ch sep p = [p].
Proof. intros H. rewrite <- (app_nil_r p) at 1. rewrite split_ch_app_nosep by exact H. cbn.
  rewrite app_nil_r; reflexivity. Qed.

Lemma split_ch_join sep parts :
  parts <> [] -> Forall (fun p => ~ In sep p) parts -> split_ch sep (join [sep] parts) = parts.
Proof.
  intros Hne H; induction parts as [|p rest IH]; [congruence|].
  inversion H as [|? ? Hp Hr]; subst. destruct rest as [|q rest].
  - cbn. apply split_ch_nosep; exact Hp.
  - rewrite join_cons by discriminate.
    rewrite split_ch_app_nosep by exact Hp.
    cbn [app]. cbn [split_ch]. rewrite N.eqb_refl.
    rewrite IH by (auto; discriminate). rewrite app_nil_r. reflexivity.
Qed.

Lemma split_ch_parts_nosep sep s : Forall (fun p => ~ In sep p) (split_ch sep s).
Proof.
  induction s as [|c s IH]; cbn [split_ch].
  - repeat constructor; auto.
  - destruct (N.eqb_spec c sep) as [->|Hne].
    + constructor; auto.
    + destruct (split_ch sep s) as [|x l] eqn:E.
      * cbn. repeat constructor. intros [->|[]]; congruence.
      * inversion IH; subst. cbn. constructor; auto. intros [->|Hin]; [congruence|contradiction].
Qed.

(** ** Whitespace: str.strip() strips these code points (str.isspace). *)
Definition is_space (c : N) : bool :=
  ((9 <=? c) && (c <=? 13) || (28 <=? c) && (c <=? 32) || (c =? 133) || (c =? 160) || (c =? 5760)
   || (8192 <=? c) && (c <=? 8202) || (c =? 8232) || (c =? 8233) || (c =? 8239) || (c =? 8287)
   || (c =? 12288))%N.

Fixpoint lstrip_by (sp : N -> bool) (s : list N) : list N :=
  match s with
  | [] => []
  | c :: s' => if sp c then lstrip_by sp s' else s
  end.
Definition rstrip_by (sp : N -> bool) (s : list N) : list N := rev (lstrip_by sp (rev s)).
Definition strip_by (sp : N -> bool) (s : list N) : list N := rstrip_by sp (lstrip_by sp s).
Definition strip (s : list N) : list N := strip_by is_space s.

(** ** Dictionaries: insertion-ordered association lists. *)
Section Dict.
  Variable V : Type.
  Definition dict := list (list N * V).
  Fixpoint dget (k : list N) (d : dict) : option V :=
    match d with
    | [] => None
    | (k', v) :: d' => if str_eqb k k' then Some v else dget k d'
    end.
  Fixpoint dset (k : list N) (v : V) (d : dict) : dict :=
    match d with
    | [] => [(k, v)]
    | (k', v') :: d' => if str_eqb k k' then (k', v) :: d' else (k', v') :: dset k v d'
    end.
  Fixpoint ddel (k : list N) (d : dict) : dict :=
    match d with
    | [] => []
    | (k', v') :: d' => if str_eqb k k' then d' else (k', v') :: ddel k d'
    end.
  Definition dkeys (d : dict) : list (list N) := map fst d.

  Lemma dget_dset_same k v d : dget k (dset k v d) = Some v.
  Proof.
    induction d as [|[k' v'] d IH]; cbn; [rewrite str_eqb_refl; reflexivity|].
    destruct (str_eqb k k') eqn:E; cbn; rewrite E; auto.
  Qed.
  Lemma dget_dset_other k k2 v d : k2 <> k -> dget k2 (dset k v d) = dget k2 d.
  Proof.
    intros Hne; induction d as [|[k' v'] d IH]; cbn.
    - apply str_eqb_neq in Hne; rewrite Hne; reflexivity.
    - destruct (str_eqb k k') eqn:E; cbn.
      + apply str_eqb_spec in E; subst k'. destruct (str_eqb k2 k) eqn:E2; [|reflexivity].
        apply str_eqb_spec in E2; congruence.
      + rewrite IH; reflexivity.
  Qed.
  Lemma dget_in k v d : dget k d = Some v -> In (k, v) d.
  Proof.
    induction d as [|[k' v'] d IH]; cbn; [discriminate|].
    destruct (str_eqb k k') eqn:E.
    - apply str_eqb_spec in E; subst; intros H; injection H as ->; left; reflexivity.
    - intros H; right; auto.
  Qed.
  Lemma dget_none k d : dget k d = None <-> ~ In k (dkeys d).
  Proof.
    unfold dkeys; induction d as [|[k' v'] d IH]; cbn; [tauto|].
    destruct (str_eqb k k') eqn:E.
    - apply str_eqb_spec in E; subst. split; [discriminate|]. intros H; exfalso; apply H; left; reflexivity.
    - apply str_eqb_neq in E. rewrite IH. split; intros H; [intros [->|H2]; auto|intros H2; apply H; right; auto].
  Qed.
  Lemma dget_nodup k v d : NoDup (dkeys d) -> In (k, v) d -> dget k d = Some v.
  Proof.
    unfold dkeys; induction d as [|[k' v'] d IH]; cbn; [intros _ []|].
    intros Hnd Hin; inversion Hnd as [|? ? Hni Hnd']; subst.
    destruct Hin as [H|H].
    - injection H as -> ->. rewrite str_eqb_refl; reflexivity.
    - destruct (str_eqb k k') eqn:E; [|auto].
      apply str_eqb_spec in E; subst. exfalso; apply Hni. apply (in_map fst) in H; exact H.
  Qed.
  Lemma dset_fresh k v d : ~ In k (dkeys d) -> dset k v d = d ++ [(k, v)].
  Proof.
    unfold dkeys; induction d as [|[k' v'] d IH]; cbn; [reflexivity|].
    intros H. destruct (str_eqb k k') eqn:E.
    - apply str_eqb_spec in E; subst; exfalso; apply H; left; reflexivity.
    - rewrite IH by (intros H2; apply H; right; exact H2). reflexivity.
  Qed.
  Lemma dkeys_dset k v d : dkeys (dset k v d) = if existsb (str_eqb k) (dkeys d) then dkeys d else dkeys d ++ [k].
  Proof.
    unfold dkeys; induction d as [|[k' v'] d IH]; cbn; [reflexivity|].
    destruct (str_eqb k k') eqn:E; cbn; [reflexivity|]. rewrite IH.
    destruct (existsb (str_eqb k) (map fst d)); reflexivity.
  Qed.
  Lemma dget_ddel_other k k2 d : k2 <> k -> dget k2 (ddel k d) = dget k2 d.
  Proof.
    intros Hne; induction d as [|[k' v'] d IH]; cbn; [reflexivity|].
    destruct (str_eqb k k') eqn:E; cbn.
    - apply str_eqb_spec in E; subst k'. destruct (str_eqb k2 k) eqn:E2; [|reflexivity].
      apply str_eqb_spec in E2; congruence.
    - rewrite IH; reflexivity.
  Qed.
End Dict.
Arguments dget {V} k d.
Arguments dset {V} k v d.
Arguments ddel {V} k d.
Arguments dkeys {V} d.
