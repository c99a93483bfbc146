(** Vocabulary for the properties of single objects (modules, help texts, headers). *)
From Coq Require Import String.
From Verif Require Import PyBase PyText Utf Cp1251 Brace Spec_Brace Pipeline Spec_Stage Spec_Misc.
Open Scope list_scope.
Open Scope N_scope.

(** a text all of whose line ends are those of the platform *)
Definition native (os : platform) (t : list N) : Prop := exists x, t = write_nl os x /\ ~ In CR x.

(** the directives that the 8.1/8.2 formats cannot hold, and the mark that hides them *)
Definition directives : list (list N) :=
  Eval vm_compute in [u "#Область"%string; u "#КонецОбласти"%string; u "&НаСервере"%string; u "&НаКлиенте"%string].
Definition hide_mark : list N := Eval vm_compute in u "// v8unpack "%string.
(** in a text, every one of the directives at the start of a line is hidden, and only these are *)
Definition all_hidden (x : list N) : Prop :=
  (forall d, In d directives -> ~ occurs (10 :: d) x) /\
  forall a c r, x = a ++ 10 :: hide_mark ++ c :: r -> In c [35; 124; 38] -> exists d r', In d directives /\ c :: r = d ++ r'.

(** What a module file can contain: UTF-8 text with or without a byte order mark, windows-1251
    text, or bytes that are neither. *)
Inductive module_text (bs : list N) : list N -> Prop :=
| mt_utf8 t : utf8_decode bs = Ok t -> module_text bs t
| mt_cp1251 t e : utf8_decode bs = Err e -> cp1251_decode bs = Ok t -> module_text bs t.
Definition not_text (bs : list N) : Prop := (exists e, utf8_decode bs = Err e) /\ exists e, cp1251_decode bs = Err e.

(** two entries of a folder hold the same: equal files, or folders with the same entries *)
Definition same_entry (a b : option tree) : Prop :=
  match a, b with
  | None, None => True
  | Some (TFile x), Some (TFile y) => x = y
  | Some (TDir x), Some (TDir y) => forall n, dget n x = dget n y
  | _, _ => False
  end.

(** A module file that can be restored: text whose line ends are those of the platform, or bytes that
    are no text. *)
Definition module_file (os : platform) (dirs : bool) (bs : list N) : Prop :=
  not_text bs \/ exists t, module_text bs t /\ native os t /\ (dirs = true -> all_hidden (univ_nl t)).
(** What may stand in a container folder under the name of a module: nothing, a module file, or a
    folder with an "info" brace file and a "text" module file and nothing else. *)
Definition f_info : list N := Eval vm_compute in u "info"%string.
Definition f_text : list N := Eval vm_compute in u "text"%string.
Definition module_entry (os : platform) (dirs : bool) (e : option tree) : Prop :=
  match e with
  | None => True
  | Some (TFile bs) => module_file os dirs bs
  | Some (TDir fo) => exists ibs bs, brace_text os ibs /\ module_file os dirs bs /\
      dget f_info fo = Some (TFile ibs) /\ dget f_text fo = Some (TFile bs) /\
      forall n, n <> f_info -> n <> f_text -> dget n fo = None
  end.

(** [y] is [x] with every directive at the start of a line hidden *)
Inductive hidden : list N -> list N -> Prop :=
| hi_nil : hidden [] []
| hi_dir d r y : In d directives -> hidden (d ++ r) y -> hidden (10 :: d ++ r) (10 :: hide_mark ++ y)
| hi_other c x y : (c = 10 -> forall d r, In d directives -> x <> d ++ r) -> hidden x y -> hidden (c :: x) (c :: y).

(** the text of a source file, which may be absent: [t] is its text without the byte order mark and
    with "\n" line ends *)
Definition source_text (e : option tree) (t : list N) : Prop :=
  match e with
  | None => t = []
  | Some (TFile sb) => exists x, utf8_decode (strip_bom sb) = Ok x /\ t = univ_nl x
  | Some (TDir _) => False
  end.
(** the bytes [bs] are the text [t] with the line ends of the platform, in the named encoding *)
Definition n_utf8 : list N := Eval vm_compute in u "utf-8"%string.
Definition n_sig : list N := Eval vm_compute in u "utf-8-sig"%string.
Definition n_1251 : list N := Eval vm_compute in u "windows-1251"%string.
Definition text_in (os : platform) (enc bs t : list N) : Prop :=
  (enc = n_utf8 /\ utf8_decode bs = Ok (write_nl os t)) \/
  (enc = n_sig /\ exists r, bs = utf8_bom ++ r /\ utf8_decode r = Ok (write_nl os t)) \/
  (enc = n_1251 /\ cp1251_decode bs = Ok (write_nl os t)).
(** the bytes of a module in a container folder: a file, or the "text" file of a folder *)
Definition module_bytes (e : option tree) (bs : list N) : Prop :=
  e = Some (TFile bs) \/ exists fo, e = Some (TDir fo) /\ dget f_text fo = Some (TFile bs).
