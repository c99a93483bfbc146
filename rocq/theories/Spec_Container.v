(** Specification vocabulary for the container properties (C01-C15).
    Nothing here refers to the model of the code. *)
From Coq Require Export Permutation.
From Verif Require Import PyBase Utf.
Open Scope Z_scope.

(** A plain file of the folder to pack: its name, the two stamps, its bytes. *)
Record entry := mkent { e_name : list N; e_ctime : Z; e_mtime : Z; e_data : list N }.

(** A name the container format can hold: Unicode text without NUL that does not begin
    with a byte order mark.  Stamps are unsigned 64-bit. *)
Definition valid_entry (e : entry) : Prop :=
  Forall scalar (e_name e) /\ ~ In 0%N (e_name e) /\ no_bom (e_name e)
  /\ 0 <= e_ctime e < 2 ^ 64 /\ 0 <= e_mtime e < 2 ^ 64.

(** A folder listing: at least one file, all names different. *)
Definition valid_listing (es : list entry) : Prop :=
  es <> [] /\ Forall valid_entry es /\ NoDup (map e_name es).

(** [es'] is [es] in ascending code point order of the names. *)
Fixpoint name_lt (a b : list N) : Prop :=
  match a, b with
  | [], [] => False
  | [], _ :: _ => True
  | _ :: _, [] => False
  | x :: a', y :: b' => (x < y)%N \/ x = y /\ name_lt a' b'
  end.
Fixpoint ascending (l : list (list N)) : Prop :=
  match l with
  | [] => True
  | a :: rest => Forall (name_lt a) rest /\ ascending rest
  end.
Definition sorted_of (es es' : list entry) : Prop :=
  Permutation es es' /\ ascending (map e_name es').

(** Number of bytes a name takes in UTF-16. *)
Definition utf16_size (s : list N) : Z :=
  fold_right (fun c acc => (if (c <? 65536)%N then 2 else 4) + acc) 0 s.

(** Layout constants of the two formats: header, block header, index block, bytes per
    table of contents entry. *)
Record layout := mklayout { l_header : Z; l_block_header : Z; l_index_block : Z; l_toc_entry : Z }.
Definition layout32 := mklayout 16 31 512 12.
Definition layout64 := mklayout 20 55 65536 24.

(** Exact number of bytes of a container built from [es]: header, room for the first index
    block, two blocks per file, and, when the table of contents does not fit the first
    index block, as many further index blocks as the table needs in total. *)
Definition entry_size (l : layout) (e : entry) : Z :=
  (l_block_header l + 24 + utf16_size (e_name e)) + (l_block_header l + Z.max 512 (zlen (e_data e))).
Definition sumz (xs : list Z) : Z := fold_right Z.add 0 xs.
Definition toc_size (l : layout) (es : list entry) : Z := l_toc_entry l * zlen es.
Definition container_size (l : layout) (es : list entry) : Z :=
  l_header l + (l_block_header l + l_index_block l) + sumz (map (entry_size l) es)
  + (if toc_size l es <=? l_index_block l then 0
     else ((toc_size l es + l_index_block l - 1) / l_index_block l) * (l_block_header l + l_index_block l)).
