(** Specification of the stage between container files and JSON files: what a folder contains, and
    which files come back byte for byte. *)
From Verif Require Import PyBase PyText Utf Brace Spec_Brace JsonText Pipeline JsonStage.
Open Scope list_scope.
Open Scope N_scope.

(** what is at a path of a folder tree *)
Fixpoint at_path (t : tree) (p : path) : option entry :=
  match p with
  | [] => Some (match t with TFile b => EFile b | TDir _ => EDir end)
  | n :: r => match t with
              | TFile _ => None
              | TDir ents => match dget n ents with Some x => at_path x r | None => None end
              end
  end.
(** the folder [fs] contains exactly the tree [t] *)
Definition contains (fs : fsys) (t : tree) : Prop := forall p, fs p = at_path t p.

(** every folder of the tree satisfies [P] *)
Inductive every_folder (P : list (list N * tree) -> Prop) : tree -> Prop :=
| ef_file b : every_folder P (TFile b)
| ef_dir ents : P ents -> Forall (fun e => every_folder P (snd e)) ents -> every_folder P (TDir ents).
(** no two entries of one name *)
Definition distinct_names (ents : list (list N * tree)) : Prop := NoDup (map fst ents).
(** no file is named with dots only, and no folder is named like the converted form of a file
    beside it *)
Definition stage_exts : list (list N) := [ext_json; ext_bin; ext_c1b64].
Definition no_clash (ents : list (list N * tree)) : Prop :=
  forall n b, In (n, TFile b) ents -> ~ Forall (fun c => c = dot) n /\
    forall x es, In x stage_exts -> ~ In (n ++ x, TDir es) ents.
(** every file of the tree satisfies [P] *)
Inductive every_file (P : list N -> Prop) : tree -> Prop :=
| ev_file b : P b -> every_file P (TFile b)
| ev_dir ents : Forall (fun e => every_file P (snd e)) ents -> every_file P (TDir ents).

Definition strip_bom (bs : list N) : list N := if starts utf8_bom bs then skipn 3 bs else bs.
(** the file starts with an opening brace *)
Definition opens (bs : list N) : Prop := exists r, strip_bom bs = OPEN :: r.
(** the file is a JSON text in UTF-8 *)
Definition json_text (bs : list N) : Prop := exists txt, utf8_decode (strip_bom bs) = Ok txt /\ jload (univ_nl txt) <> None.
(** the file is a brace file as the program writes it *)
Definition brace_text (os : platform) (bs : list N) : Prop :=
  exists data, canonical data /\ Forall scalar (concat (flat_map leaves data)) /\ brace_file_write os data [] = (Ok tt, bs).
(** the file is a brace file that holds one big binary payload *)
Definition big_text (bs : list N) : Prop := exists txt, utf8_decode (strip_bom bs) = Ok txt /\ decode_file (univ_nl txt) = Err BigBase64.
Definition restorable (os : platform) (bs : list N) : Prop := ~ opens bs \/ json_text bs \/ brace_text os bs \/ big_text bs.
