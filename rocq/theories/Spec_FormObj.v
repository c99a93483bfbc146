(** Vocabulary for whole forms: which files of a container folder belong to a form and what may stand in them. *)
From Coq Require Import String.
From Verif Require Import PyBase PyInt PyText Utf Cp1251 Brace Spec_Brace Spec_Misc JsonText JsonTextProofs JsonObj Pipeline Spec_Stage ObjCode Spec_Obj Payload Spec_Payload MetaObj Spec_MetaObj Spec_Form
  FormCode FormElem Spec_FormElem FormJson Form27 Spec_Form27 Form27Json Form.
Set Implicit Arguments.
Open Scope list_scope.
Open Scope N_scope.

(** ** The header *)
(** the kinds of forms by class: where the list with the header, the version of the form and its type stands *)
Inductive stands_in : froot -> val -> list nat -> Prop :=
| si_one data : stands_in RForm1 data [0; 1]%nat
| si_zero data : stands_in RForm0 data [0]%nat
| si_old data : vat [0; 1; 0]%nat data = Ok (VStr (u "0")) -> stands_in RForm data [0; 1]%nat
| si_new data : vat [0; 1; 0]%nat data = Ok (VStr (u "1")) -> stands_in RForm data [0; 1; 1]%nat.
(** the type of the form; without a fourth value the form is ordinary *)
Inductive type_is : list val -> list N -> Prop :=
| ty_given a b c t more : type_is (a :: b :: c :: VStr t :: more) t
| ty_none l : (length l <= 3)%nat -> type_is l (u "0").
(** the header list [hdr], the version and the type of a form with this header tree *)
Definition form_head (r : froot) (data : list val) (hdr : list val) (type : list N) : Prop :=
  exists root version, stands_in r (VList data) root /\
    vat (root ++ [1])%nat (VList data) = Ok (VList version) /\ type_is version type /\
    (exists v, nth_error version 0 = Some (VStr v) /\ In v (map u ["5"; "7"; "9"; "12"; "13"; "14"]%string)) /\ nth_error version 1 = Some (VList hdr).

(** ** The form file *)
(** a text as a literal *)
Definition literal (t : list N) : list N := 34 :: flat_map (fun c => if c =? 34 then [34; 34] else [c]) t ++ [34].
(** a module that can be kept in a source file of its own *)
Definition form_text (t : list N) : Prop := ~ In 13 t /\ forall r, t <> 65279 :: r.

Section S.
Variable left : ekind -> val -> jval.
Variable parent : option (list N).
(** the elements of a managed form: they are read, or they cannot be read and nothing looks as if they were taken out.
    [marked] is the form without its module. *)
Definition managed_elems (raw marked : list val) : Prop :=
  (parent <> Some [] /\ exists props cmds pars es, form_is raw props cmds pars es) \/
  (left_whole raw /\ (exists e, elems_decode parent marked = Err e) /\ jgood (left KManaged (VList marked)) /\ exists fe, felems_of (left KManaged (VList marked)) = Ok fe).
(** a list in which a module is looked for *)
Definition holds_module (l : list val) : Prop :=
  exists v mid x b5 b4 b3 b2 b1, In v (map u ["22"; "1"]%string) /\ (2 <= length mid)%nat /\ l = VStr v :: mid ++ [x; b5; b4; b3; b2; b1; VStr (u "0"); VStr (u "0")].
(** A managed form with its module: the third value of the first list, or a value in the last list of the file (which may be
    inside the first list, after its elements); or no module is found *)
Inductive managed_is : list val -> list N -> Prop :=
| mg_first v a text more rest : In v (map u ["4"; "3"; "2"]%string) -> form_text text ->
    managed_elems (VStr v :: a :: VStr (literal text) :: more) (VStr v :: a :: VStr code_mark :: more) ->
    managed_is (VList (VStr v :: a :: VStr (literal text) :: more) :: rest) text
| mg_last raw c ctx v mid text b5 b4 b3 b2 b1 : In v (map u ["22"; "1"]%string) -> (2 <= length mid)%nat -> form_text text ->
    ~ first_kind [VList raw] -> managed_elems raw raw ->
    managed_is (nest ((VList raw :: c) :: ctx) (VStr v :: mid ++ [VStr (literal text); b5; b4; b3; b2; b1; VStr (u "0"); VStr (u "0")])) text
| mg_none raw c ctx inner z : ~ first_kind [VList raw] -> (forall l, z <> VList l) -> ~ holds_module (inner ++ [z]) -> managed_elems raw raw ->
    managed_is (nest ((VList raw :: c) :: ctx) (inner ++ [z])) []
| mg_inside front ctx v mid text b5 b4 b3 b2 b1 : In v (map u ["22"; "1"]%string) -> (2 <= length mid)%nat -> form_text text -> (6 <= length front)%nat -> ~ first_kind [VList front] ->
    let raw s := front ++ [VList (nest ctx (VStr v :: mid ++ [VStr s; b5; b4; b3; b2; b1; VStr (u "0"); VStr (u "0")]))] in
    managed_elems (raw (literal text)) (raw code_mark) -> managed_is [VList (raw (literal text))] text
| mg_self v mid text b5 b4 b3 b2 b1 : In v (map u ["22"; "1"]%string) -> (5 <= length mid)%nat -> form_text text ->
    let raw s := VStr v :: mid ++ [VStr s; b5; b4; b3; b2; b1; VStr (u "0"); VStr (u "0")] in
    managed_elems (raw (literal text)) (raw code_mark) -> managed_is [VList (raw (literal text))] text
| mg_inside_none front ctx inner z : (6 <= length front)%nat -> ~ first_kind [VList front] -> (forall l, z <> VList l) -> ~ holds_module (inner ++ [z]) ->
    let raw := front ++ [VList (nest ctx (inner ++ [z]))] in managed_elems raw raw -> managed_is [VList raw] []
| mg_self_none front y z : (6 <= length front)%nat -> ~ first_kind [VList front] -> (forall l, z <> VList l) -> ~ holds_module (front ++ [y; z]) ->
    let raw := front ++ [y; z] in managed_elems raw raw -> managed_is [VList raw] [].

Variable auto : bool.
Variable old_dec : nat -> val -> res (val * jval).
Variable old_enc : nat -> jval -> val -> res val.
(** The elements of an ordinary form: a version that is read, or one that is not *)
Inductive ordinary_is : list val -> Prop :=
| or_read at_ v raw rest props links pages es after : In (at_, v) [(3%nat, u "26"%string); (4%nat, u "27"%string)] -> nth_error raw 0 = Some (VStr v) -> auto = false ->
    form27_is at_ raw props links pages es after -> ordinary_is (VList raw :: rest)
| or_auto at_ v raw rest j raw' : In (at_, v) [(3%nat, u "26"%string); (4%nat, u "27"%string)] -> nth_error raw 0 = Some (VStr v) -> auto = true ->
    old_dec at_ (VList raw) = Ok (VList raw', j) -> nth_error raw' 0 = Some (VStr v) -> jgood j -> Forall scalar (concat (leaves (VList raw'))) -> old_enc at_ j (VList raw') = Ok (VList raw) ->
    ordinary_is (VList raw :: rest)
| or_other v y raw rest : ~ In v (map u ["26"; "27"]%string) -> (y = VNone \/ exists z, vget y 0 = Ok z) -> ordinary_is (VList (VStr v :: y :: raw) :: rest).

(** ** The files *)
Variable os : platform.
Variable src : folder.
(** the second file: absent or a brace file *)
Definition second_is (uuid : list N) : Prop :=
  dget (dotted uuid (u "1"%string)) src = None \/ exists bs l, dget (dotted uuid (u "1"%string)) src = Some (TFile bs) /\ brace_bytes os l bs.
Definition module_is (bs : list N) : Prop := exists t, module_text bs t /\ native os t /\ all_hidden (univ_nl t).
(** A managed form has a file <uuid>.0; an ordinary form has nothing, or a folder <uuid>.0 with the files form and module *)
Inductive form_files (uuid : list N) : list N -> Prop :=
| ff_managed bs l text : dget (dotted uuid (u "0"%string)) src = Some (TFile bs) -> brace_bytes os l bs -> managed_is l text -> second_is uuid -> form_files uuid (u "1"%string)
| ff_ordinary fo bs l mbs : dget (dotted uuid (u "0"%string)) src = Some (TDir fo) -> dget (u "form"%string) fo = Some (TFile bs) -> brace_bytes os l bs -> ordinary_is l ->
    dget (u "module"%string) fo = Some (TFile mbs) -> module_is mbs -> (forall n, n <> u "form"%string -> n <> u "module"%string -> dget n fo = None) -> second_is uuid -> form_files uuid (u "0"%string)
| ff_none : dget (dotted uuid (u "0"%string)) src = None -> dget (dotted uuid (u "1"%string)) src = None -> form_files uuid (u "0"%string).
(** The header file of a form: [data] is its header tree, [hdr] the list with the identifier and the names *)
Record form_header (c : fclass) (uuid name : list N) (locs : list (list N * list N)) (comment : list N) (data hdr : list val) (type : list N) : Prop := {
  fh_file : in_file os src uuid data;
  fh_head : form_head (f_root c) data hdr type;
  fh_fields : exists h0 a b r1 more tl, hdr = h0 :: VList (a :: b :: VStr uuid :: r1) :: Spec_Misc.quoted name :: locale_list locs more :: Spec_Misc.quoted comment :: tl;
  fh_locs : NoDup (map fst locs)
}.
(** A form in a container folder *)
Definition form_at (c : fclass) (uuid name : list N) (locs : list (list N * list N)) (comment : list N) (data hdr : list val) : Prop :=
  exists type, form_header c uuid name locs comment data hdr type /\ form_files uuid type.
(** the source files of a form *)
Definition form_uses (c : fclass) (n : list N) : Prop :=
  n = dotted (f_name c) s_json \/ n = dotted (f_name c) s_idjson \/ n = dotted (f_name c) (u "elem.json"%string) \/ exists x, n = source_name (f_name c) (u "obj"%string) x.
(** the files of the form that there are *)
Definition files_of_form (uuid : list N) : list (list N) := uuid :: here uuid src [u "0"%string; u "1"%string].
End S.

(** ** Edited modules *)
(** the encoding of a module file that is a text *)
Inductive encoding_of (bs : list N) : list N -> Prop :=
| en_mark r t : bs = utf8_bom ++ r -> utf8_decode bs = Ok t -> encoding_of bs n_sig
| en_plain t : (forall r, bs <> utf8_bom ++ r) -> utf8_decode bs = Ok t -> encoding_of bs n_utf8
| en_old t e : utf8_decode bs = Err e -> cp1251_decode bs = Ok t -> encoding_of bs n_1251.
(** the module among the source files *)
Definition module_source (c : fclass) : list N := source_name (f_name c) (u "obj"%string) (u "bsl"%string).
(** the folder [srcs] has the source files of the form as in [own], but for the module *)
Definition same_but_module (c : fclass) (own srcs : folder) : Prop := forall n, form_uses c n -> n <> module_source c -> dget n srcs = dget n own.
