(** Model of the retry loops: /repo/src/v8unpack/helper.py 84-99 txt_write and 402-409
    makedirs.  The operating system is an oracle: what each attempt does. *)
From Verif Require Import PyBase.
Set Implicit Arguments.
Open Scope list_scope.
Open Scope Z_scope.

(** one os.makedirs attempt *)
Inductive mk_attempt := MkDone | MkPerm | MkOther (e : exn).
(** one "open for writing, write, close" attempt: done, PermissionError before the file was
    opened, PermissionError after it was opened (leaving [lft] in it), another error *)
Inductive wr_attempt := WrDone | WrPerm | WrPermLeft (lft : list N) | WrOther (e : exn) (lft : list N).

(** makedirs: result and number of attempts made; [n] is the number of tries still allowed *)
Fixpoint makedirs_go (n : nat) (i : nat) (os : nat -> mk_attempt) : res unit * nat :=
  match n with
  | O => (Err PermissionError, i)
  | S n' => match os i with
            | MkDone => (Ok tt, S i)
            | MkPerm => makedirs_go n' (S i) os
            | MkOther e => (Err e, S i)
            end
  end.
Definition makedirs (os : nat -> mk_attempt) : res unit * nat := makedirs_go 3 0 os.

(** txt_write lines 90-97: result, number of attempts, content of the file afterwards *)
Fixpoint write_go (n : nat) (i : nat) (os : nat -> wr_attempt) (data : list N) (content : option (list N))
    : res unit * nat * option (list N) :=
  match n with
  | O => (Err PermissionError, i, content)
  | S n' => match os i with
            | WrDone => (Ok tt, S i, Some data)
            | WrPerm => write_go n' (S i) os data content
            | WrPermLeft lft => write_go n' (S i) os data (Some lft)
            | WrOther e lft => (Err e, S i, Some lft)
            end
  end.
(** txt_write: [None] data writes nothing; every failure becomes an ExtException *)
Definition txt_write (data : option (list N)) (mk : nat -> mk_attempt) (os : nat -> wr_attempt) (content : option (list N))
    : res unit * option (list N) :=
  match data with
  | None => (Ok tt, content)
  | Some d =>
    match makedirs mk with
    | (Err _, _) => (Err ExtExc, content)
    | (Ok _, _) =>
      match write_go 3 0 os d content with
      | (Ok _, _, c) => (Ok tt, c)
      | (Err _, _, c) => (Err ExtExc, c)
      end
    end
  end.
