(** Vocabulary for the files of an object that are not modules. *)
From Coq Require Import String.
From Verif Require Import PyBase PyText Utf B64 Brace Spec_Brace Pipeline Spec_Stage ObjCode Payload.
Open Scope list_scope.
Open Scope N_scope.

(** the marks before a base64 payload *)
Definition marks : list (list N) := Eval vm_compute in [u "##base64:"%string; u "#base64:"%string; u "#data:"%string].
(** [data] is the content of a help file whose fourth element is an object that begins with the leaf [s];
    [data'] is the same with [s'] instead *)
Definition slot (data : list val) (s : list N) (data' : list val) (s' : list N) : Prop :=
  exists a b c m l t, data = VList (a :: b :: c :: VList (VStr s :: m) :: l) :: t /\
                      data' = VList (a :: b :: c :: VList (VStr s' :: m) :: l) :: t.
(** the same, the object has no other elements *)
Definition slot1 (data : list val) (s : list N) (data' : list val) (s' : list N) : Prop :=
  exists a b c l t, data = VList (a :: b :: c :: VList [VStr s] :: l) :: t /\
                    data' = VList (a :: b :: c :: VList [VStr s'] :: l) :: t.
(** [data] has no such object: too few elements, or a fourth element that is absent or whose first
    element is absent *)
Definition blank (v : val) : Prop := v = VNone \/ v = VStr [].
Definition slot_blank (data : list val) : Prop :=
  exists l t, data = VList l :: t /\
    ((length l <= 3)%nat \/ exists v, nth_error l 3 = Some v /\ (blank v \/ exists x m, v = VList (x :: m) /\ blank x)).

(** the bytes of the brace file that holds [data] *)
Definition brace_bytes (os : platform) (data : list val) (bs : list N) : Prop :=
  canonical data /\ Forall scalar (concat (flat_map leaves data)) /\ brace_file_write os data [] = (Ok tt, bs).

(** A help text (or HTML template) in a container folder, and the bytes of its payload:
    nothing; a file of more than a million bytes, which has no known payload; a brace file with a
    payload; a brace file without. *)
Inductive help_entry (os : platform) : option tree -> option (list N) -> Prop :=
| he_none : help_entry os None None
| he_big bs : (1000000 < N.of_nat (length bs))%N -> help_entry os (Some (TFile bs)) None
| he_payload data bs mark content : brace_bytes os data bs -> (N.of_nat (length bs) <= 1000000)%N -> In mark marks -> B64.bytes content ->
    let s := mark ++ b64_encode content in slot data s data s -> help_entry os (Some (TFile bs)) (Some content)
| he_blank data bs : brace_bytes os data bs -> (N.of_nat (length bs) <= 1000000)%N -> slot_blank data -> help_entry os (Some (TFile bs)) None.

(** ** Templates *)
(** a text file: UTF-8 with or without a byte order mark, all line ends those of the platform *)
Definition utf8_text (os : platform) (bs : list N) : Prop :=
  exists x, utf8_decode (strip_bom bs) = Ok (write_nl os x) /\ ~ In CR x.
(** the kinds of template content *)
Inductive tmpl_kind := KCopied | KHtml | KText | KBinary.
(** what may stand in the content file of a template *)
Definition tmpl_entry (os : platform) (k : tmpl_kind) (e : option tree) : Prop :=
  match k with
  | KCopied => e = None \/ exists bs, e = Some (TFile bs)
  | KHtml => exists content, help_entry os e content
  | KText => e = None \/ exists bs, e = Some (TFile bs) /\ utf8_text os bs
  | KBinary => e = None \/ exists bs, e = Some (TFile bs) /\ big_text bs
  end.

(** ** Pictures: the payload is the first leaf of the first object of the third element *)
Definition picture (data : list val) (s : list N) (data' : list val) (s' : list N) : Prop :=
  exists a b m r l t, data = VList (a :: b :: VList (VList (VStr s :: m) :: r) :: l) :: t /\
                      data' = VList (a :: b :: VList (VList (VStr s' :: m) :: r) :: l) :: t.
Definition picture1 (data : list val) (s : list N) (data' : list val) (s' : list N) : Prop :=
  exists a b r l t, data = VList (a :: b :: VList (VList [VStr s] :: r) :: l) :: t /\
                    data' = VList (a :: b :: VList (VList [VStr s'] :: r) :: l) :: t.
(** no picture: the third element, or its first object, or the first leaf of that, is absent *)
Definition picture_blank (data : list val) : Prop :=
  exists l t, data = VList l :: t /\ exists v, nth_error l 2 = Some v /\
    (blank v \/ exists x m, v = VList (x :: m) /\ (blank x \/ exists y r, x = VList (y :: r) /\ blank y)).
Inductive picture_entry (os : platform) : option tree -> option (list N) -> Prop :=
| pe_none : picture_entry os None None
| pe_payload data bs mark content : brace_bytes os data bs -> In mark marks -> B64.bytes content ->
    let s := mark ++ b64_encode content in picture data s data s -> picture_entry os (Some (TFile bs)) (Some content).

(** the kind of each template type *)
Definition kind_of (ty : tmpl) : tmpl_kind :=
  match ty with TBase64 | TExtension => KBinary | THtml => KHtml | TText => KText | _ => KCopied end.
(** the header files of an object, that stand among its sources *)
Definition s_json : list N := Eval vm_compute in u "json"%string.
Definition s_idjson : list N := Eval vm_compute in u "id.json"%string.
(** the same source files of the object but for these *)
Definition same_sources (fname : list N) (srcs dest : folder) : Prop :=
  forall x, x <> s_json -> x <> s_idjson -> dget (dotted fname x) srcs = dget (dotted fname x) dest.
(** a text without its line ends *)
Definition flat (t : list N) : list N := filter (fun c => negb ((c =? 10) || (c =? 13))) t.
