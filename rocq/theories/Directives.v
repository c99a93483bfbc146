(** Model of the directive comments: /repo/src/v8unpack/MetaObject/__init__.py 20-21 (the two
    regular expressions), 276-281 and 283-288 (their use).  Both patterns start with a
    newline and match no further newline, so re.sub can be modelled by looking at what
    follows each newline. *)
From Coq Require Import String.
From Verif Require Import PyBase PyText.
Set Implicit Arguments.
Open Scope list_scope.
Open Scope N_scope.

Definition d_area : list N := Eval vm_compute in u "#Область"%string.
Definition d_end : list N := Eval vm_compute in u "#КонецОбласти"%string.
Definition d_server : list N := Eval vm_compute in u "&НаСервере"%string.
Definition d_client : list N := Eval vm_compute in u "&НаКлиенте"%string.
Definition marker : list N := Eval vm_compute in u "// v8unpack "%string.

Definition directive_at (s : list N) : bool :=
  starts d_area s || starts d_end s || starts d_server s || starts d_client s.

(** directive_1c_uncomment.sub(r'\g<n>// v8unpack \g<d>', code): lines 20, 287 *)
Fixpoint comment_directives (code : list N) : list N :=
  match code with
  | [] => []
  | c :: rest => if (c =? LF) && directive_at rest then LF :: marker ++ comment_directives rest
                 else c :: comment_directives rest
  end.

(** the character class [#|&] of line 21 *)
Definition dir_char (c : N) : bool := (c =? 35) || (c =? 124) || (c =? 38).
Definition marked_at (s : list N) : bool :=
  starts marker s && match skipn (length marker) s with c :: _ => dir_char c | [] => false end.

(** directive_1c_comment.sub(r'\g<n>\g<d>', code): lines 21, 280.  [skip] counts the marker
    characters still to be dropped. *)
Fixpoint uncomment_go (skip : nat) (code : list N) : list N :=
  match code with
  | [] => []
  | c :: rest =>
    match skip with
    | S k => uncomment_go k rest
    | O => if (c =? LF) && marked_at rest then LF :: uncomment_go (length marker) rest
           else c :: uncomment_go O rest
    end
  end.
Definition uncomment_directives (code : list N) : list N := uncomment_go O code.
