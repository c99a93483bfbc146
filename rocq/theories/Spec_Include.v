(** Vocabulary for the lists of included objects in a header tree: what such a list looks like, which
    objects it names, and what the build knows about them. *)
From Coq Require Import String Permutation.
From Verif Require Import PyBase PyInt Brace Spec_Container EncodeLoop Types Include.
Set Implicit Arguments.
Open Scope list_scope.
Open Scope N_scope.

(** The objects of one type: the identifier of the type, their number, the objects, and whatever follows *)
Record group := mkgroup { g_type : list N; g_count : list N; g_objs : list val; g_more : list val }.
Definition group_val (g : group) : val := VList (VStr (g_type g) :: VStr (g_count g) :: g_objs g ++ g_more g).
Definition group_ok (g : group) : Prop := int_of_str (g_count g) = Ok (Z.of_nat (length (g_objs g))).
(** The list of all types: its second element is the description of the object itself *)
Definition list_val (a b : val) (count : list N) (gs : list group) (more : list val) : val := VList (a :: b :: VStr count :: map group_val gs ++ more).
Definition list_ok (count : list N) (gs : list group) : Prop := int_of_str count = Ok (Z.of_nat (length gs)) /\ Forall group_ok gs.
(** the name of the type, if the program knows it *)
Definition known (g : group) : option (list N) := type_of (VStr (g_type g)).

Section S.
Variable Y : Type.
Variable inner : list N -> option (val -> res (list N * Y)).
(** An identifier names an object with a file of its own; a list is the object itself, if the type has a
    class, whose extraction gives its identifier and what is written for it. *)
Inductive taken (t : list N) : val -> child Y -> Prop :=
| tk_file u : taken t (VStr u) (CFile Y u)
| tk_inner l f u y : inner t = Some f -> f (VList l) = Ok (u, y) -> taken t (VList l) (CInner u y).
Definition left_alone (t : list N) (o : val) : Prop := o = VNone \/ exists l, o = VList l /\ inner t = None.
Definition child_uuid (k : child Y) : list N := match k with CFile _ u => u | CInner u _ => u end.

Variable lower : list N -> list N.
(** Every object of the group is among the entries: its data, under its identifier (in letters of any case);
    the identifiers differ.  [es]: the entries in the order of the group *)
Definition entries_for (objs : list val) (ks : list (child Y)) (es : list (entry val)) : Prop :=
  Forall2 (fun o (e : entry val) => snd (snd e) = o) objs es /\ Forall2 (fun k (e : entry val) => lower (child_uuid k) = lower (fst (snd e))) ks es /\
  NoDup (map (fun e : entry val => lower (fst (snd e))) es) /\ NoDup (map fst es).
(** A group [g] extracted with children [ks] and built again as [g']; with [auto] the objects are put in
    order of their names. *)
Inductive regrouped (auto : bool) (idx : tindex val) (g : group) : list (list N * list (child Y)) -> group -> Prop :=
| rg_unknown : known g = None -> regrouped auto idx g [] g
| rg_alone t : known g = Some t -> Forall (left_alone t) (g_objs g) -> of_type idx t = [] -> regrouped auto idx g [] g
| rg_listed t ks es : known g = Some t -> auto = false -> g_objs g <> [] -> Forall2 (taken t) (g_objs g) ks -> entries_for (g_objs g) ks es ->
    Permutation (of_type idx t) es -> regrouped auto idx g [(t, ks)] g
| rg_sorted t ks es es' : known g = Some t -> auto = true -> g_objs g <> [] -> Forall2 (taken t) (g_objs g) ks -> entries_for (g_objs g) ks es ->
    Permutation (of_type idx t) es -> Permutation es es' -> ascending (map fst es') ->
    regrouped auto idx g [(t, ks)] (mkgroup (g_type g) (str_of_int (Z.of_nat (length (g_objs g)))) (map (fun e : entry val => snd (snd e)) es') []).
Inductive regrouped_all (auto : bool) (idx : tindex val) : list group -> list (list N * list (child Y)) -> list group -> Prop :=
| ra_nil : regrouped_all auto idx [] [] []
| ra_cons g k g' gs ks gs' : regrouped auto idx g k g' -> regrouped_all auto idx gs ks gs' -> regrouped_all auto idx (g :: gs) (k ++ ks) (g' :: gs').
End S.
