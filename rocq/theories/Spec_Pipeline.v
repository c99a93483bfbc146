(** Specification vocabulary for the pipeline properties (C13, C14, C48): what a correct pair of
    compressor and decompressor is, and what the user put into a folder.  Of the model only the
    type [inflater] (a decompression object) and the type [tree] (a folder on disk) are used. *)
From Verif Require Import PyBase Utf PyFile Container Spec_Container Pipeline.
Open Scope list_scope.
Open Scope Z_scope.

(** Reading a stream 8192 bytes at a time: full pieces, then a shorter non-empty one or nothing. *)
Inductive cut : list N -> list (list N) -> Prop :=
| cut_end : cut [] []
| cut_short p : 0 < zlen p < 8192 -> cut p [p]
| cut_full p rest ps : zlen p = 8192 -> cut rest ps -> cut (p ++ rest) (p :: ps).

(** What a decompression object returns for the successive pieces. *)
Fixpoint feed (inf : inflater) (st : i_state inf) (ps : list (list N)) : res (list (list N)) :=
  match ps with
  | [] => Ok []
  | p :: rest => ' (out, st') <- i_step inf st p ;; outs <- feed inf st' rest ;; Ok (out :: outs)
  end.

(** Textbook correctness of a pair: decompressing the stream piece by piece gives the data. *)
Definition restores (inf : inflater) (stream d : list N) : Prop :=
  exists ps outs, cut stream ps /\ feed inf (i_init inf) ps = Ok outs /\ concat outs = d.
(** What the code needs besides: once a piece yields nothing, the later ones yield nothing too. *)
Definition restores_without_gap (inf : inflater) (stream d : list N) : Prop :=
  exists ps outs, cut stream ps /\ feed inf (i_init inf) ps = Ok outs /\ concat outs = d
    /\ forall before after, outs = before ++ [] :: after -> concat after = [].
(** And for recognising containers: the first piece yields at least four bytes, or everything. *)
Definition restores_promptly (inf : inflater) (stream d : list N) : Prop :=
  exists ps outs, cut stream ps /\ feed inf (i_init inf) ps = Ok outs /\ concat outs = d
    /\ (forall before after, outs = before ++ [] :: after -> concat after = [])
    /\ (forall o more, outs = o :: more -> 4 <= zlen o \/ o = d).

(** A file beginning with FF FF FF 7F. *)
Definition looks_like_container (d : list N) : Prop := exists t, d = [255; 255; 255; 127]%N ++ t.

(** A folder entry the user packs: a plain file or a folder of plain files. *)
Inductive item := Plain (e : entry) | Sub (name : list N) (es : list entry).
Definition i_name (i : item) : list N := match i with Plain e => e_name e | Sub n _ => n end.

(** The folder on disk before packing ... *)
Definition file_node (e : entry) : list N * node := (e_name e, NFile (e_ctime e) (e_mtime e) (e_data e)).
Definition item_node (i : item) : list N * node :=
  match i with Plain e => file_node e | Sub n es => (n, NDir (map file_node es)) end.
(** ... and after unpacking.  The files of a sub-folder are written in ascending order. *)
Definition file_tree (e : entry) : list N * tree := (e_name e, TFile (e_data e)).
Inductive comes_back : item -> list N * tree -> Prop :=
| back_plain e : comes_back (Plain e) (file_tree e)
| back_sub n es es' : sorted_of es es' -> comes_back (Sub n es) (n, TDir (map file_tree es')).

(** Files that may be packed: none is taken for a container. *)
Definition no_signature (es : list entry) : Prop := Forall (fun e => ~ looks_like_container (e_data e)) es.
(** An item that can be packed. *)
Definition valid_item (i : item) : Prop :=
  match i with
  | Plain e => ~ looks_like_container (e_data e)
  | Sub _ es => valid_listing es /\ no_signature es /\ container_size layout32 es < 2147483647
  end.
Definition valid_name (n : list N) : Prop := Forall scalar n /\ ~ In 0%N n /\ no_bom n.

(** ** configinfo (C48) *)
(** The mark "{____versions____}" put into configinfo by the encoder. *)
Definition mark_text : list N := [123; 95; 95; 95; 95; 118; 101; 114; 115; 105; 111; 110; 115; 95; 95; 95; 95; 125]%N.
Definition contains (p s : list N) : Prop := exists a b, s = a ++ p ++ b.
(** What should replace the mark: {count,"name",digest,"name",digest,...} over the other files. *)
Definition quoted_name (n : list N) : list N := [34%N] ++ n ++ [34%N].
Definition version_fields (digest : list N -> list N) (others : list (list N * list N)) : list (list N) :=
  flat_map (fun e => [quoted_name (fst e); digest (snd e)]) others.
Fixpoint comma_separated (parts : list (list N)) : list N :=
  match parts with [] => [] | [p] => p | p :: rest => p ++ [44%N] ++ comma_separated rest end.
Definition versions_line (count : list N) (digest : list N -> list N) (others : list (list N * list N)) : list N :=
  [123%N] ++ comma_separated (count :: version_fields digest others) ++ [125%N].
