(** Where a form keeps its module text, independently of the code that looks for it. *)
From Verif Require Import PyBase Brace FormCode.
Open Scope list_scope.
Open Scope N_scope.

(** [nest ctx inner]: [inner] is the innermost list reached by always taking the last element *)
Fixpoint nest (ctx : list (list val)) (inner : list val) : list val :=
  match ctx with [] => inner | c :: r => c ++ [VList (nest r inner)] end.

(** The first element of the form looks like a form of the first kind. *)
Definition first_kind (form : list val) : Prop :=
  (exists v a b more rest, form = VList (VStr v :: a :: b :: more) :: rest /\ In v [t4; t3; t2]) \/
  (exists c d e r rest, form = VStr (c :: d :: e :: r) :: rest /\ In [c] [t4; t3; t2]).

(** [place form]: a form as a function of the raw text in its code field. *)
Inductive place : (list N -> list val) -> Prop :=
| place_first : forall v a more rest, In v [t4; t3; t2] -> place (fun s => VList (VStr v :: a :: VStr s :: more) :: rest)
| place_last : forall ctx v mid b5 b4 b3 b2 b1,
    In v [t22; t1] -> (2 <= length mid)%nat ->
    (forall s, nth_error (nest ctx (VStr v :: mid ++ [VStr s; b5; b4; b3; b2; b1; VStr t0; VStr t0])) 0 <> Some VNone) ->
    (forall s, ~ first_kind (nest ctx (VStr v :: mid ++ [VStr s; b5; b4; b3; b2; b1; VStr t0; VStr t0]))) ->
    place (fun s => nest ctx (VStr v :: mid ++ [VStr s; b5; b4; b3; b2; b1; VStr t0; VStr t0])).

(** Every quote of the text belongs to a pair of adjacent quotes. *)
Inductive paired : list N -> Prop :=
| paired_nil : paired []
| paired_other : forall c s, c <> 34 -> paired s -> paired (c :: s)
| paired_pair : forall s, paired s -> paired (34 :: 34 :: s).
(** A quoted string of the brace format. *)
Definition quoted (raw : list N) : Prop := exists body, raw = 34 :: body ++ [34] /\ paired body.
