(** Specification of the trees a brace file can carry.  Independent of the encoder and of
    the decoder: only the value type [val] and the literals come from the model. *)
From Verif Require Import PyBase PyText PyB64 Brace.
Open Scope list_scope.
Open Scope N_scope.

(** a bare scalar: number, identifier, uuid, date... *)
Definition plain_char (c : N) : Prop := ~ In c [COMMA; CLOSE; QUOTE; LF; CR].
Definition plain (s : list N) : Prop := Forall plain_char s.

(** the inside of a string literal: every double quote is doubled *)
Inductive doubled : list N -> Prop :=
| dq_nil : doubled []
| dq_char c t : c <> QUOTE -> doubled t -> doubled (c :: t)
| dq_quote t : doubled t -> doubled (QUOTE :: QUOTE :: t).
(** a string literal: may contain commas, braces, newlines, but no carriage return *)
Definition quoted (s : list N) : Prop :=
  exists body, s = QUOTE :: body ++ [QUOTE] /\ doubled body /\ ~ In CR body.

(** leaves that are not folded into base64 lines *)
Definition leaf_ok (s : list N) : Prop :=
  s <> [] /\ (plain s \/ quoted s) /\
  starts p_base64 s = false /\ starts pp_base64 s = false /\
  ((length s <= 64)%nat \/ b64_accepts s = false).
(** a bare leaf of more than 64 characters that b64decode accepts ("#data:" payloads are such) *)
Definition long_leaf (s : list N) : Prop :=
  Forall (fun c => plain_char c /\ c <> OPEN) s /\ starts p_base64 s = false /\ starts pp_base64 s = false /\
  (64 < length s)%nat /\ b64_accepts s = true.
(** binary payloads *)
Definition payload_char (c : N) : Prop := ~ In c [CLOSE; LF; CR].
Definition b64_folded (s : list N) : Prop :=
  starts p_base64 s = true /\ (72 <= length s)%nat /\ Forall payload_char s.
Definition b64_line (s : list N) : Prop :=
  starts pp_base64 s = true /\ Forall payload_char s.

Definition first_ok (l : list val) : Prop :=
  match l with VStr s :: _ => starts hash_base64 s = false | _ => True end.

(** [elems_ok after l]: [l] can follow in an object; [after] says that the element before is
    an object.  An absent value is None directly after an object and '' elsewhere. *)
Inductive elems_ok : bool -> list val -> Prop :=
| e_nil b : elems_ok b []
| e_none t : elems_ok false t -> elems_ok true (VNone :: t)
| e_empty t : elems_ok false t -> elems_ok false (VStr [] :: t)
| e_leaf b s t : leaf_ok s -> elems_ok false t -> elems_ok b (VStr s :: t)
| e_long b s : long_leaf s -> elems_ok b [VStr s]
| e_obj b l t : obj_ok l -> elems_ok true t -> elems_ok b (VList l :: t)
with obj_ok : list val -> Prop :=
| o_b64 s : b64_folded s \/ b64_line s -> obj_ok [VStr s]
| o_list l : l <> [] -> first_ok l -> elems_ok false l -> obj_ok l.

(** does a tree contain a binary payload object? *)
Fixpoint has_b64 (v : val) : bool :=
  match v with
  | VList l =>
    match l with [VStr s] => starts p_base64 s || starts pp_base64 s | _ => false end || existsb has_b64 l
  | _ => false
  end.

(** the shape that the reader reports as "one big base64 file" instead of decoding it *)
Definition not_big (roots : list val) : Prop :=
  match roots with
  | VList (VStr x :: y :: _) :: _ => x = lit_1 -> has_b64 y = false
  | _ => True
  end.

Definition canonical (roots : list val) : Prop :=
  roots <> [] /\ Forall (fun v => exists l, v = VList l /\ obj_ok l) roots /\ not_big roots.

(** every string leaf of a tree satisfies [P] *)
Fixpoint leaves (v : val) : list (list N) :=
  match v with VNone => [] | VStr s => [s] | VList l => flat_map leaves l end.

(** a leaf that the encoder does not fold *)
Definition unfolded (s : list N) : Prop :=
  starts p_base64 s = false /\ starts pp_base64 s = false /\ ((length s <= 64)%nat \/ b64_accepts s = false).

(** [shaped]: outside string literals every line starts with a brace, and no line opens a
    base64 object.  [bol] = at the beginning of a line, [inq] = inside a literal. *)
Fixpoint shaped (bol inq : bool) (t : list N) : bool :=
  match t with
  | [] => true
  | c :: r =>
    (if bol && negb inq then (c =? CLOSE) || (c =? OPEN) && negb (starts hash_base64 r) else true) &&
    shaped (c =? LF) (xorb inq (c =? QUOTE)) r
  end.
Fixpoint odd_quotes (t : list N) : bool :=
  match t with [] => false | c :: r => xorb (c =? QUOTE) (odd_quotes r) end.

(** blank lines followed by a line that starts with neither brace *)
Definition text_like (t : list N) : Prop :=
  exists n c r, t = repeat LF n ++ c :: r /\ c <> LF /\ c <> OPEN /\ c <> CLOSE.
