(** base64.b64decode of the Python standard library; models nothing of /repo. *)
From Verif Require Import PyBase.
Open Scope list_scope.
Open Scope N_scope.

(** ** base64.b64decode(s) for a str argument, validate=False (Python standard library):
    only whether it raises.  Non-ASCII raises ValueError; characters outside the alphabet
    are skipped; data must come in complete quads, '=' closing the last one. *)
Definition b64_alpha (c : N) : bool :=
  ((65 <=? c) && (c <=? 90)) || ((97 <=? c) && (c <=? 122)) || ((48 <=? c) && (c <=? 57)) || (c =? 43) || (c =? 47).
Definition b64_pad : N := 61.
Fixpoint b64_go (quad pads : N) (s : list N) : bool :=
  match s with
  | [] => quad =? 0
  | c :: t =>
    if c =? b64_pad then
      if 2 <=? quad then (if 4 <=? quad + (pads + 1) then true else b64_go quad (pads + 1) t)
      else b64_go quad pads t
    else if b64_alpha c then b64_go ((quad + 1) mod 4) 0 t
    else b64_go quad pads t
  end.
Definition b64_accepts (s : list N) : bool := forallb (fun c => c <? 128) s && b64_go 0 0 s.

