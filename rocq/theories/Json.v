(** JSON values as Python sees them after json.load: used by the index functions. *)
From Verif Require Import PyBase.
Set Implicit Arguments.
Open Scope list_scope.
Open Scope Z_scope.

(** Numbers are integers here: no modelled function looks inside a number. *)
Inductive json :=
| JNull | JBool (b : bool) | JNum (z : Z) | JStr (s : list N) | JList (l : list json) | JDict (d : list (list N * json)).

Definition jdict := list (list N * json).

Section Ind.
  Variable P : json -> Prop.
  Hypothesis Hnull : P JNull.
  Hypothesis Hbool : forall b, P (JBool b).
  Hypothesis Hnum : forall z, P (JNum z).
  Hypothesis Hstr : forall s, P (JStr s).
  Hypothesis Hlist : forall l, Forall P l -> P (JList l).
  Hypothesis Hdict : forall d, Forall (fun e => P (snd e)) d -> P (JDict d).
  Fixpoint json_ind2 (j : json) : P j :=
    match j with
    | JNull => Hnull | JBool b => Hbool b | JNum z => Hnum z | JStr s => Hstr s
    | JList l => Hlist ((fix go l : Forall P l := match l with [] => Forall_nil _ | x :: r => Forall_cons _ (json_ind2 x) (go r) end) l)
    | JDict d => Hdict ((fix go d : Forall (fun e => P (snd e)) d :=
                           match d with [] => Forall_nil _ | e :: r => Forall_cons e (json_ind2 (snd e)) (go r) end) d)
    end.
End Ind.

(** truth value of a Python object *)
Definition jtruthy (j : json) : bool :=
  match j with
  | JNull => false | JBool b => b | JNum z => negb (z =? 0)
  | JStr [] => false | JStr _ => true | JList [] => false | JList _ => true | JDict [] => false | JDict _ => true
  end.
