(** Text-mode files of the Python runtime: newline translation and line iteration.
    Models only the Python standard library, not /repo. *)
From Verif Require Import PyBase.
Open Scope N_scope.
Open Scope list_scope.

Definition LF : N := 10.
Definition CR : N := 13.

(** open(..., 'r'): universal newlines, '\r\n' and '\r' become '\n' *)
Fixpoint univ_nl (s : list N) : list N :=
  match s with
  | [] => []
  | c :: t => if c =? CR
              then match t with
                   | d :: t2 => if d =? LF then LF :: univ_nl t2 else LF :: univ_nl t
                   | [] => [LF]
                   end
              else c :: univ_nl t
  end.

(** open(..., 'w'): '\n' becomes os.linesep, which is "\n" (POSIX) or "\r\n" (Windows) *)
Inductive platform := Posix | Windows.
Definition linesep (p : platform) : list N := match p with Posix => [LF] | Windows => [CR; LF] end.
Definition write_nl (p : platform) (s : list N) : list N :=
  flat_map (fun c => if c =? LF then linesep p else [c]) s.

(** for line in file: every line keeps its '\n'; a last line without one is yielded too *)
Fixpoint first_line (s : list N) : list N * list N :=
  match s with
  | [] => ([], [])
  | c :: t => if c =? LF then ([c], t) else let (a, b) := first_line t in (c :: a, b)
  end.
Fixpoint lines (s : list N) : list (list N) :=
  match s with
  | [] => []
  | c :: t => if c =? LF then [c] :: lines t
              else match t with
                   | [] => [[c]]
                   | _ => cons_first c (lines t)
                   end
  end.

Lemma lines_cons_ne c t : c <> LF -> t <> [] -> lines (c :: t) = cons_first c (lines t).
Proof. intros H Ht. cbn. apply N.eqb_neq in H. rewrite H. destruct t; [congruence|reflexivity]. Qed.

Lemma lines_nil_iff s : lines s = [] <-> s = [].
Proof.
  split; [|intros ->; reflexivity]. destruct s as [|c t]; [reflexivity|]. cbn.
  destruct (c =? LF); [discriminate|]. destruct t; [discriminate|].
  destruct (lines (n :: t)); discriminate.
Qed.

Lemma lines_first s : s <> [] -> lines s = fst (first_line s) :: lines (snd (first_line s)).
Proof.
  induction s as [|c t IH]; [congruence|]. intros _. cbn [lines first_line].
  destruct (c =? LF); [reflexivity|].
  destruct t as [|d t]; [reflexivity|].
  rewrite IH by discriminate. destruct (first_line (d :: t)) as [a b]. reflexivity.
Qed.

Lemma lines_line l t : ~ In LF l -> lines (l ++ LF :: t) = (l ++ [LF]) :: lines t.
Proof.
  induction l as [|c l IH]; intros H; [reflexivity|].
  cbn [app lines]. replace (c =? LF) with false.
  2: { symmetry; apply N.eqb_neq; intros ->; apply H; left; reflexivity. }
  rewrite IH by (intros H2; apply H; right; exact H2).
  destruct (l ++ LF :: t) eqn:E; [destruct l; discriminate|reflexivity].
Qed.

Lemma lines_concat s : concat (lines s) = s.
Proof.
  induction s as [|c t IH]; [reflexivity|]. cbn [lines]. destruct (c =? LF) eqn:E.
  - apply N.eqb_eq in E; subst. cbn. rewrite IH; reflexivity.
  - destruct t as [|d t]; [reflexivity|]. destruct (lines (d :: t)) as [|l ls] eqn:El.
    + apply lines_nil_iff in El; discriminate.
    + cbn in *. rewrite IH. reflexivity.
Qed.

Lemma first_line_app l t : ~ In LF l -> first_line (l ++ LF :: t) = (l ++ [LF], t).
Proof.
  induction l as [|c l IH]; intros H; [reflexivity|].
  cbn [app first_line]. replace (c =? LF) with false.
  2: { symmetry; apply N.eqb_neq; intros ->; apply H; left; reflexivity. }
  rewrite IH by (intros H2; apply H; right; exact H2). reflexivity.
Qed.

Lemma first_line_whole l : ~ In LF l -> first_line l = (l, []).
Proof.
  induction l as [|c l IH]; intros H; [reflexivity|]. cbn [first_line].
  replace (c =? LF) with false.
  2: { symmetry; apply N.eqb_neq; intros ->; apply H; left; reflexivity. }
  rewrite IH by (intros H2; apply H; right; exact H2). reflexivity.
Qed.

Lemma univ_nl_id s : ~ In CR s -> univ_nl s = s.
Proof.
  induction s as [|c t IH]; intros H; [reflexivity|]. cbn [univ_nl].
  replace (c =? CR) with false.
  2: { symmetry; apply N.eqb_neq; intros ->; apply H; left; reflexivity. }
  rewrite IH by (intros H2; apply H; right; exact H2). reflexivity.
Qed.

Lemma univ_nl_app_nocr s t : ~ In CR s -> univ_nl (s ++ t) = s ++ univ_nl t.
Proof.
  induction s as [|c s IH]; intros H; [reflexivity|]. cbn [app univ_nl].
  replace (c =? CR) with false.
  2: { symmetry; apply N.eqb_neq; intros ->; apply H; left; reflexivity. }
  rewrite IH by (intros H2; apply H; right; exact H2). reflexivity.
Qed.

Lemma write_nl_app p s t : write_nl p (s ++ t) = write_nl p s ++ write_nl p t.
Proof. unfold write_nl. apply flat_map_app. Qed.
Lemma write_nl_posix s : write_nl Posix s = s.
Proof.
  induction s as [|c s IH]; [reflexivity|]. unfold write_nl in *. cbn [flat_map]. rewrite IH.
  destruct (c =? LF) eqn:E; [apply N.eqb_eq in E; subst|]; reflexivity.
Qed.

Lemma write_nl_cons p c s : write_nl p (c :: s) = (if c =? LF then linesep p else [c]) ++ write_nl p s.
Proof. reflexivity. Qed.

(** writing text without '\r' and reading it back in text mode changes nothing, on either platform *)
Lemma univ_write_nocr p s : ~ In CR s -> univ_nl (write_nl p s) = s.
Proof.
  intros H. destruct p; [rewrite write_nl_posix; apply univ_nl_id; exact H|].
  induction s as [|c s IH]; [reflexivity|].
  rewrite write_nl_cons. destruct (c =? LF) eqn:E.
  - apply N.eqb_eq in E; subst. cbn [linesep app univ_nl]. change (CR =? CR) with true. change (LF =? LF) with true.
    cbv iota. rewrite IH by (intros H2; apply H; right; exact H2). reflexivity.
  - cbn [app univ_nl]. replace (c =? CR) with false.
    2: { symmetry; apply N.eqb_neq; intros ->; apply H; left; reflexivity. }
    rewrite IH by (intros H2; apply H; right; exact H2). reflexivity.
Qed.

Lemma in_first_line s x : In x (fst (first_line s)) -> In x s.
Proof.
  induction s as [|c t IH]; [intros []|]. cbn. destruct (c =? LF).
  - intros [->|[]]; left; reflexivity.
  - destruct (first_line t) as [a b]; cbn in *. intros [->|H]; [left; reflexivity|right; auto].
Qed.
