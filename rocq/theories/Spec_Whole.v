(** Vocabulary for whole files: which extracted folders can be packed again. *)
From Coq Require Import String Permutation.
From Verif Require Import PyBase Utf PyFile PyText Container Spec_Container Pipeline Spec_Pipeline PipelineProofs Spec_Obj Whole Props_Pipeline.
Open Scope list_scope.
Open Scope Z_scope.

(** the content of an entry, with the times [c] and [m] *)
Definition plain_entry (c m : Z) (e : list N * tree) : entry := mkent (fst e) c m (match snd e with TFile d => d | TDir _ => [] end).
(** A file that is not taken for a container, or a folder of such files that fits in a container. *)
Definition packable (t : tree) : Prop :=
  match t with
  | TFile d => ~ looks_like_container d
  | TDir l => l <> [] /\ NoDup (map fst l) /\ Forall (fun e => valid_name (fst e) /\ exists d, snd e = TFile d /\ ~ looks_like_container d) l
      /\ container_size layout32 (map (plain_entry 0 0) l) < 2147483647
  end.
(** the entries of these names are there and can be packed; no name is that of the temporary copy of a folder *)
Definition packable_names (src : list (list N * tree)) (names : list (list N)) : Prop :=
  forall n, In n names -> valid_name n /\ (exists t, dget n src = Some t /\ packable t) /\ (forall l, dget n src = Some (TDir l) -> ~ In (n ++ u ".temp"%string) names).
(** times that the format can hold *)
Definition times_ok (time : list (list N) -> Z * Z) : Prop := forall p, 0 <= fst (time p) < 2 ^ 64 /\ 0 <= snd (time p) < 2 ^ 64.
(** any order in which a folder may be listed *)
Definition listing_order (A : Type) (order : list A -> list A) : Prop := forall l, Permutation l (order l).
Arguments listing_order {A} order.
(** what is packed: the entries of a folder with the times of the files *)
Definition item_at (time : list (list N) -> Z * Z) (e : list N * tree) : item :=
  match snd e with
  | TFile d => Plain (mkent (fst e) (fst (time [fst e])) (snd (time [fst e])) d)
  | TDir l => Sub (fst e) (map (fun x => plain_entry (fst (time [fst e; fst x])) (snd (time [fst e; fst x])) x) (once l))
  end.
(** The size of the container of the compressed files *)
Definition packed_size (deflate : list N -> list N) (stamp : list N -> Z * Z) (time : list (list N) -> Z * Z) (fo : list (list N * tree)) : Z :=
  container_size layout32 (stored_listing deflate stamp (map (item_at time) fo)).
(** Two folders with the same names and, but for the names in [but], the same contents *)
Definition same_folder (but names : list (list N)) (src src' : list (list N * tree)) : Prop :=
  Permutation names (map fst src') /\ NoDup (map fst src') /\ forall n, In n names -> ~ In n but -> same_entry (dget n src) (dget n src').

(** ** configinfo of an extension *)
(** the record of the other files: their number, and the name and digest of each *)
Definition digest_list (digest : list N -> list N) (others : list (list N * list N)) : Brace.val :=
  Brace.VList (Brace.VStr (PyInt.str_of_int (zlen others)) :: flat_map (fun e => [Brace.VStr ([34%N] ++ fst e ++ [34%N]); Brace.VStr (digest (snd e))]) others).
(** A text file in the line ends of the platform that does not hold the mark *)
Definition unmarked (os : platform) (bs : list N) : Prop := exists x, utf8_decode bs = Ok (write_nl os x) /\ ~ In CR x /\ ~ contains mark_text x.
