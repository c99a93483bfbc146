(** Vocabulary of the statements about the entry points. *)
From Coq Require Import String.
From Verif Require Import PyBase Json Driver.
Set Implicit Arguments.
Open Scope list_scope.

Definition w_disable : list N := Eval vm_compute in u "disable"%string.
Definition w_src : list N := Eval vm_compute in u "src"%string.
Definition w_bin : list N := Eval vm_compute in u "bin"%string.
Definition w_temp : list N := Eval vm_compute in u "temp"%string.
Definition w_index : list N := Eval vm_compute in u "index"%string.
Definition w_options : list N := Eval vm_compute in u "options"%string.
Definition w_product : list N := Eval vm_compute in u "product"%string.
Definition w_descent : list N := Eval vm_compute in u "descent"%string.
Definition w_prefix : list N := Eval vm_compute in u "prefix"%string.
Definition w_auto_include : list N := Eval vm_compute in u "auto_include"%string.
Definition w_version : list N := Eval vm_compute in u "version"%string.

(** ** The disk *)
Definition within (d f : list (list N)) : Prop := exists rest, rest <> [] /\ f = d ++ rest.
Definition same_disk (w1 w2 : disk) : Prop := forall f, w1 f = w2 f.
(** the result depends on the disk only *)
Definition respects (a : act) : Prop :=
  forall w1 w2 w1' w2' r1 r2, same_disk w1 w2 -> a w1 = (w1', r1) -> a w2 = (w2', r2) -> r1 = r2 /\ same_disk w1' w2'.
(** no other file is written or removed *)
Definition touches_only (here : list (list N) -> Prop) (a : act) : Prop :=
  forall w w' r f, a w = (w', r) -> ~ here f -> w' f = w f.
Definition always_fails (a : act) : Prop := forall w, exists w' e, a w = (w', Err e).

(** ** Products *)
Definition off (d : jdict) : Prop := exists v, dget w_disable d = Some v /\ jtruthy v = true.
(** a field that may be absent or null *)
Definition may_be (d : jdict) (k : list N) (o : option (list N)) : Prop :=
  match o with Some s => dget k d = Some (JStr s) | None => dget k d = None \/ dget k d = Some JNull end.

(** the call of extract a product asks for *)
Definition asks_extract (d : jdict) (c : call) : Prop :=
  dget w_src d = Some (JStr (a_src c)) /\ dget w_bin d = Some (JStr (a_bin c)) /\ may_be d w_temp (a_temp c) /\
  (exists i, may_be d w_index i /\ a_index c = match i with Some s => s | None => [] end) /\
  (dget w_options d = Some (a_options c) \/ dget w_options d = None /\ a_options c = JNull).
(** the call of build: the options, which must be a dictionary or absent, with the product's name
    added *)
Definition asks_build (name : list N) (d : jdict) (c : call) : Prop :=
  dget w_src d = Some (JStr (a_src c)) /\ dget w_bin d = Some (JStr (a_bin c)) /\ may_be d w_temp (a_temp c) /\
  (exists i, may_be d w_index i /\ a_index c = match i with Some s => s | None => [] end) /\
  exists o o', (dget w_options d = Some (JDict o) \/ dget w_options d = None /\ o = []) /\ a_options c = JDict o' /\
    dget w_product o' = Some (JStr name) /\ (forall k, k <> w_product -> dget k o' = dget k o).
Definition asks_index (dest : json) (d : jdict) (c : json * json * json) : Prop :=
  exists src index, dget w_src d = Some src /\ (dget w_index d = Some index \/ dget w_index d = None /\ index = JNull) /\
    c = (src, index, dest).

(** the calls the enabled products ask for, in the order of the file *)
Inductive to_do {A} (asks : list N -> jdict -> A -> Prop) : jdict -> list A -> Prop :=
| td_nil : to_do asks [] []
| td_off name d rest cs : off d -> to_do asks rest cs -> to_do asks ((name, JDict d) :: rest) cs
| td_on name d rest c cs : ~ off d -> asks name d c -> to_do asks rest cs -> to_do asks ((name, JDict d) :: rest) (c :: cs).

(** one after the other; the first error ends it all *)
Inductive in_order {A} (run : A -> act) : list A -> disk -> disk -> res unit -> Prop :=
| io_done w : in_order run [] w w (Ok tt)
| io_next c cs w w1 w2 r : run c w = (w1, Ok tt) -> in_order run cs w1 w2 r -> in_order run (c :: cs) w w2 r
| io_error c cs w w1 e : run c w = (w1, Err e) -> in_order run (c :: cs) w w1 (Err ExtExc).

(** a product build_all cannot start: no dictionary, no src or bin, or options that are no
    dictionary (null, for one) *)
Definition unbuildable (params : json) : Prop :=
  (forall d, params <> JDict d) \/
  exists d, params = JDict d /\ ~ off d /\
    (dget w_src d = None \/ dget w_bin d = None \/ exists o, dget w_options d = Some o /\ forall o', o <> JDict o').
