(** Boolean tests for the vocabulary of Spec_FormElem, used by the examples. *)
From Coq Require Import Lia.
From Verif Require Import PyBase PyInt Brace Header CalcOffset HeaderProofs Spec_Misc MiscProofs FormElem Spec_FormElem.
Set Implicit Arguments.
Open Scope list_scope.
Open Scope Z_scope.

(** the counted segment at the front of [l]: its number and what follows *)
Definition seg_count_b (k size : Z) (l : list val) : option (Z * list val) :=
  if (1 <=? k) && (1 <=? size) then
    match skipn (Z.to_nat (k - 1)) l with
    | VStr s :: r => match int_of_str s with
                     | Ok n => if (0 <=? n) && str_eqb (str_of_int n) s && (n * size <=? zlen r) then Some (n, r) else None
                     | Err _ => None
                     end
    | _ => None
    end
  else None.
Fixpoint lo_b (counters : list (Z * Z)) (l : list val) : bool :=
  match counters with
  | [] => match l with [] => true | _ => false end
  | (k, size) :: cs =>
    if size =? 0 then (0 <=? k) && (k <=? zlen l) && lo_b cs (skipn (Z.to_nat k) l)
    else match seg_count_b k size l with Some (n, r) => lo_b cs (skipn (Z.to_nat (n * size)) r) | None => false end
  end.
Fixpoint holds_b (counters : list (Z * Z)) (l : list val) : option Z :=
  match counters with
  | [] => match l with [] => Some 0 | _ => None end
  | (k, size) :: cs =>
    if size =? 0 then if (0 <=? k) && (k <=? zlen l) then holds_b cs (skipn (Z.to_nat k) l) else None
    else match seg_count_b k size l with
         | Some (n, r) => match holds_b cs (skipn (Z.to_nat (n * size)) r) with Some m => Some (n * size + m) | None => None end
         | None => None
         end
  end.
Lemma zlen_firstn (A : Type) n (l : list A) : 0 <= n <= zlen l -> zlen (firstn (Z.to_nat n) l) = n.
Proof. unfold zlen. intros H. rewrite firstn_length. lia. Qed.
Lemma seg_count_ok k size l n r : seg_count_b k size l = Some (n, r) -> exists filler, k = 1 + zlen filler /\ size <> 0 /\ 0 <= n /\ n * size <= zlen r /\ 0 <= n * size /\ l = filler ++ VStr (str_of_int n) :: r.
Proof.
  unfold seg_count_b. destruct ((1 <=? k) && (1 <=? size)) eqn:E; [|discriminate]. apply andb_prop in E as [E1 E2]. apply Z.leb_le in E1, E2.
  destruct (skipn (Z.to_nat (k - 1)) l) as [|v r'] eqn:Es; [discriminate|]. destruct v as [|s|]; try discriminate. destruct (int_of_str s) as [n'|]; [|discriminate].
  destruct ((0 <=? n') && str_eqb (str_of_int n') s && (n' * size <=? zlen r')) eqn:E; [|discriminate]. apply andb_prop in E as [E E3]. apply andb_prop in E as [E4 E5]. apply Z.leb_le in E3, E4. apply str_eqb_spec in E5. intros Q. injection Q as <- <-.
  exists (firstn (Z.to_nat (k - 1)) l). assert (L : (Z.to_nat (k - 1) < length l)%nat). { destruct (le_lt_dec (length l) (Z.to_nat (k - 1))) as [Hl|]; [|assumption]. rewrite skipn_all2 in Es by exact Hl. discriminate. }
  split; [rewrite zlen_firstn by (unfold zlen; lia); lia|]. split; [lia|]. split; [lia|]. split; [lia|]. split; [nia|]. rewrite E5, <- Es. symmetry. apply firstn_skipn.
Qed.
Lemma lo_ok : forall counters l, lo_b counters l = true -> laid_out counters l.
Proof.
  induction counters as [|[k size] cs IH]; intros l H; cbn [lo_b] in H; [destruct l; [constructor|discriminate]|].
  destruct (size =? 0) eqn:E.
  - apply Z.eqb_eq in E. subst size. apply andb_prop in H as [H1 H2]. apply andb_prop in H1 as [H0 H1]. apply Z.leb_le in H0, H1.
    rewrite <- (firstn_skipn (Z.to_nat k) l). constructor; [|apply IH, H2]. constructor. symmetry. apply zlen_firstn. lia.
  - destruct (seg_count_b k size l) as [[n r]|] eqn:Es; [|discriminate]. apply seg_count_ok in Es as (filler & Hk & Hs & Hn & Hr & Hp & ->).
    rewrite <- (firstn_skipn (Z.to_nat (n * size)) r). change (VStr (str_of_int n) :: ?a ++ ?b) with ((VStr (str_of_int n) :: a) ++ b). rewrite app_assoc. constructor; [|apply IH, H]. constructor; auto. apply zlen_firstn. lia.
Qed.
Lemma holds_ok : forall counters l m, holds_b counters l = Some m -> holds counters l m.
Proof.
  induction counters as [|[k size] cs IH]; intros l m H; cbn [holds_b] in H; [destruct l; [injection H as <-; constructor|discriminate]|].
  destruct (size =? 0) eqn:E.
  - apply Z.eqb_eq in E. subst size. destruct ((0 <=? k) && (k <=? zlen l)) eqn:H1; [|discriminate]. apply andb_prop in H1 as [H0 H1]. apply Z.leb_le in H0, H1.
    rewrite <- (firstn_skipn (Z.to_nat k) l). constructor; [symmetry; apply zlen_firstn; lia|apply IH, H].
  - destruct (seg_count_b k size l) as [[n r]|] eqn:Es; [|discriminate]. apply seg_count_ok in Es as (filler & Hk & Hs & Hn & Hr & Hp & ->).
    destruct (holds_b cs (skipn (Z.to_nat (n * size)) r)) as [m'|] eqn:Eh; [|discriminate]. injection H as <-.
    rewrite <- (firstn_skipn (Z.to_nat (n * size)) r). change (VStr (str_of_int n) :: ?a ++ ?b) with ((VStr (str_of_int n) :: a) ++ b). rewrite app_assoc. constructor; auto. apply zlen_firstn. lia.
Qed.
(** [v] stands at the place that is [n] values behind the first *)
Lemma firstn_next (A : Type) (v : A) : forall l n, nth_error l n = Some v -> firstn n l ++ [v] = firstn (S n) l.
Proof. induction l as [|y l IH]; intros [|n] Hv; try discriminate; cbn [nth_error] in Hv; [injection Hv as ->; reflexivity|]. cbn [firstn app]. f_equal. rewrite (IH _ Hv). destruct l; reflexivity. Qed.
Lemma stands_at counters x (l : list val) n v : nth_error l n = Some v -> lo_b counters (firstn (S n) l) = true -> stands counters v (x :: l).
Proof.
  intros Hv Hl. exists x, (firstn n l), (skipn (S n) l). rewrite (firstn_next _ _ Hv). split; [rewrite firstn_skipn; reflexivity|apply lo_ok, Hl].
Qed.
Lemma counted_at counters x (l : list val) n m : holds_b counters (firstn n l) = Some m -> counted counters (x :: l) (zlen (x :: l) - m).
Proof. intros H. exists x, (firstn n l), (skipn n l), m. rewrite firstn_skipn. split; [reflexivity|]. split; [apply holds_ok, H|reflexivity]. Qed.
