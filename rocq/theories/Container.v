(** Model of the container format: container.py, container_doc.py,
    container_writer.build and the scan of container_reader.extract. *)
From Verif Require Import PyBase PyInt Utf PyFile.
Open Scope Z_scope.

(** Class attributes of Container and Container64
    (container.py:28-37 and container.py:295-304). *)
Record cfmt := mkfmt {
  f_end : Z;        (* end_marker *)
  f_first_w : nat;  (* width of the first header field: '4i' or '1Q3i' *)
  f_hsize : Z;      (* header_size *)
  f_bhsize : Z;     (* block_header_size *)
  f_hexw : nat;     (* block_header_fmt_size: hex digits per field *)
  f_upper : bool;   (* int2hex upper-cases *)
  f_isgn : bool;    (* index_fmt 'i' is signed, 'Q' is not *)
  f_iw : nat;       (* width of index_fmt *)
  f_ibs : Z         (* index_block_size *)
}.
(** container.py:28-37 *)
Definition fmt32 : cfmt := mkfmt 0x7fffffff 4 16 31 8 false true 4 0x200.
(** container.py:295-304 *)
Definition fmt64 : cfmt := mkfmt 0xffffffffffffffff 8 20 55 16 true false 8 0x10000.
(** container.py:36,43: the instance attribute default_block_size of a fresh container *)
Definition default_block_size : Z := 0x200.

(** container.py:280-292 and 306-318: int2hex *)
Definition int2hex (fm : cfmt) (v : Z) : list N :=
  let s := rjust0 (f_hexw fm) (fmt_02x v) in
  if f_upper fm then upper s else s.

(** struct 'Ns': truncated or zero-padded to N bytes *)
Definition pack_s (n : nat) (s : list N) : list N := firstn n s ++ repeat 0%N (n - length s).

(** container_doc.py:154-156: the packed block header *)
Definition block_header (fm : cfmt) (doc_size block_size next : Z) : list N :=
  let h v := pack_s (f_hexw fm) (int2hex fm v) in
  [13; 10]%N ++ h doc_size ++ [32%N] ++ h block_size ++ [32%N] ++ h next ++ [32%N] ++ [13; 10]%N.

(** container_doc.py:136-163 Document.write_block.
    Simplification: write_block_data (container_doc.py:180-187) copies the data in
    512-byte pieces; consecutive writes at the current position are one write here. *)
Definition write_block (fm : cfmt) (f : pyfile) (data : list N)
    (doc_size min_block_size : Z) (offset next_block_offset : option Z) : pyfile * Z :=
  let '(f1, off) := match offset with
    | Some o => (fseek o f, o)
    | None => (f, fsize f)
    end in
  let block_size := zlen data in
  let min_bs := Z.max min_block_size block_size in
  let next := match next_block_offset with
    | Some n => if n =? 0 then f_end fm else n
    | None => f_end fm
    end in
  let f2 := fwrite (block_header fm doc_size min_bs next) f1 in
  let f3 := fwrite data f2 in
  let f4 := fwrite (zeros (min_bs - block_size)) f3 in
  (f4, off).

(** container_doc.py:133-134 Document.write *)
Definition doc_write (fm : cfmt) (f : pyfile) (data : list N) (min_block_size : Z) : pyfile * Z :=
  write_block fm f data (zlen data) min_block_size None None.

(** container_doc.py:125-129: the description document of a file *)
Definition file_description (ctime mtime : Z) (name : list N) : res (list N) :=
  c <- pack_int false 8 ctime ;;
  m <- pack_int false 8 mtime ;;
  z <- pack_int true 4 0 ;;
  nm <- utf16le_encode name ;;
  Ok (c ++ m ++ z ++ nm ++ zeros 4).

(** What Container.build finds for a directory entry (container.py:202-211).
    A plain file is opened and added.  A sub-directory is built into a temporary
    file which is closed before it is added: add_file then raises ValueError
    (os.stat(file.fileno()) on a closed file); [PDirErr] carries the exception. *)
Inductive prep :=
| PFile (ctime mtime : Z) (data : list N)
| PDirErr (e : exn).

(** Container attributes used while writing: file and toc (container.py:39-46). *)
Record wst := mkw { w_file : pyfile; w_toc : list (Z * option Z) }.

(** sorted(os.listdir(...)): by code points *)
Fixpoint str_leb (a b : list N) : bool :=
  match a, b with
  | [], _ => true
  | _ :: _, [] => false
  | x :: a', y :: b' => (x <? y)%N || (N.eqb x y && str_leb a' b')
  end.
Fixpoint insert_by {A} (leb : A -> A -> bool) (x : A) (l : list A) : list A :=
  match l with
  | [] => [x]
  | y :: l' => if leb x y then x :: l else y :: insert_by leb x l'
  end.
Fixpoint sort_by {A} (leb : A -> A -> bool) (l : list A) : list A :=
  match l with [] => [] | x :: l' => insert_by leb x (sort_by leb l') end.
Definition sort_names {A} (l : list (list N * A)) : list (list N * A) :=
  sort_by (fun x y => str_leb (fst x) (fst y)) l.

(** Directory trees.  Time stamps are the values of epoch2int. *)
Inductive node :=
| NFile (ctime mtime : Z) (data : list N)
| NDir (ents : list (list N * node)).

Section Build.
  (** zlib raw deflate of a whole stream (container_doc.py:166-176) *)
  Variable deflate : list N -> list N.

  (** container.py:258-278 add_file.  With inflate, Document.compress writes the
      stream and returns None (container_doc.py:166-177). *)
  Definition add_file (fm : cfmt) (inflate : bool) (st : wst) (name : list N) (p : prep) : res wst :=
    match p with
    | PDirErr e => Err e
    | PFile ct mt data =>
      d <- file_description ct mt name ;;
      let '(f1, attr_off) := doc_write fm (w_file st) d 0 in
      if inflate then Ok (mkw (fwrite (deflate data) f1) (w_toc st ++ [(attr_off, None)]))
      else let '(f2, data_off) := doc_write fm f1 data default_block_size in
           Ok (mkw f2 (w_toc st ++ [(attr_off, Some data_off)]))
    end.

  (** container.py:202-211: the loop over the sorted files *)
  Fixpoint add_files (fm : cfmt) (inflate : bool) (st : wst) (ents : list (list N * prep)) : res wst :=
    match ents with
    | [] => Ok st
    | (n, p) :: rest => st' <- add_file fm inflate st n p ;; add_files fm inflate st' rest
    end.

  (** container.py:214-224 write_header *)
  Definition write_header (fm : cfmt) (f : pyfile) (offset : Z) (count : Z) : res pyfile :=
    a <- pack_int (f_isgn fm) (f_first_w fm) (f_end fm) ;;
    b <- pack_int true 4 default_block_size ;;
    c <- pack_int true 4 count ;;
    d <- pack_int true 4 0 ;;
    Ok (fwrite (zeros (f_ibs fm + f_bhsize fm)) (fwrite (a ++ b ++ c ++ d) (fseek offset f))).

  (** container.py:231-232: the packed table of contents *)
  Fixpoint toc_bytes (fm : cfmt) (toc : list (Z * option Z)) : res (list N) :=
    match toc with
    | [] => Ok []
    | (a, od) :: rest =>
      pa <- pack_int (f_isgn fm) (f_iw fm) a ;;
      pd <- match od with Some d => pack_int (f_isgn fm) (f_iw fm) d | None => Err StructError end ;;
      pe <- pack_int (f_isgn fm) (f_iw fm) (f_end fm) ;;
      r <- toc_bytes fm rest ;;
      Ok (pa ++ pd ++ pe ++ r)
    end.

  (** container.py:250-254: the loop over the middle blocks *)
  Fixpoint toc_loop (fm : cfmt) (n : nat) (f : pyfile) (rest : list N) (next : Z) : pyfile * list N :=
    match n with
    | O => (f, rest)
    | S k =>
      let next' := next + f_ibs fm + f_bhsize fm in
      let '(f', _) := write_block fm f (ztake (f_ibs fm) rest) 0 (f_ibs fm) None (Some next') in
      toc_loop fm k f' (zdrop (f_ibs fm) rest) next'
    end.

  (** container.py:226-256 write_table_off_content.
      math.ceil(doc_size / index_block_size) is modelled exactly (the float quotient by a
      power of two is exact below 2^53 bytes). *)
  Definition write_toc (fm : cfmt) (st : wst) : res pyfile :=
    match w_toc st with
    | [] => Err IOError
    | _ =>
      t <- toc_bytes fm (w_toc st) ;;
      let doc_size := zlen t in
      let total := (doc_size + f_ibs fm - 1) / f_ibs fm in
      if total =? 1 then Ok (fst (write_block fm (w_file st) t doc_size 0 (Some (f_hsize fm)) None))
      else
        let next := fsize (w_file st) in
        let '(f1, _) := write_block fm (w_file st) (ztake (f_ibs fm) t) doc_size (f_ibs fm)
                          (Some (f_hsize fm)) (Some next) in
        let f2 := fseek_end f1 in
        let '(f3, rest) := toc_loop fm (Z.to_nat (total - 1)) f2 (zdrop (f_ibs fm) t) next in
        Ok (fst (write_block fm f3 (ztake (f_ibs fm) rest) 0 (f_ibs fm) None None))
    end.

  (** container.py:197-212 build, on entries whose kind has been looked up *)
  Definition build_prepared (fm : cfmt) (f : pyfile) (ents : list (list N * prep)) (nested : bool) (offset : Z)
    : res pyfile :=
    let files := sort_names ents in
    f0 <- write_header fm f offset (zlen files) ;;
    st <- add_files fm (negb nested) (mkw f0 []) files ;;
    write_toc fm st.

  (** container.py:204-208 *)
  Fixpoint prep_of (n : node) : prep :=
    match n with
    | NFile c m d => PFile c m d
    | NDir es =>
      match build_prepared fmt32 fempty (map (fun e => (fst e, prep_of (snd e))) es) true 0 with
      | Ok _ => PDirErr ValueError
      | Err e => PDirErr e
      end
    end.

  (** container.py:197-212 build(file, src_dir, nested, offset=offset);
      [ents] is the listing of src_dir in whatever order the OS gives it *)
  Definition build (fm : cfmt) (f : pyfile) (ents : list (list N * node)) (nested : bool) (offset : Z) : res pyfile :=
    build_prepared fm f (map (fun e => (fst e, prep_of (snd e))) ents) nested offset.

  (** container_writer.py:17-49 build(src_dir, filename, nested): [containers] is the
      content of src_dir. *)
  Definition writer_build (containers : list (list N * list (list N * node))) (nested : bool) : res pyfile :=
    let n := zlen containers in
    if negb ((n =? 1) || (n =? 2)) then Err NotImplementedError
    else match dget [48%N] containers with
      | None => Err FileNotFoundError
      | Some c0 =>
        f <- build fmt32 fempty c0 nested 0 ;;
        if n =? 2 then
          match dget [49%N] containers with
          | None => Err FileNotFoundError
          | Some c1 => build fmt64 (fseek_end f) c1 nested (fsize f)
          end
        else Ok f
      end.
End Build.

(** ** Reading *)
(** container.py:20 the Block namedtuple *)
Record block := mkblock { b_doc : Z; b_cur : Z; b_next : Z; b_data : list N }.

(** file.seek(p): negative positions raise ValueError, positions above 2^63-1 OverflowError *)
Definition check_seek (p : Z) : res unit :=
  if p <? 0 then Err ValueError else if 2 ^ 63 <=? p then Err OverflowError else Ok tt.
(** file.read(n) at position p of a BufferedReader: -1 reads to the end, other negative
    values raise ValueError *)
Definition read_at (file : list N) (p n : Z) : res (list N) :=
  if n <? -1 then Err ValueError
  else if n =? -1 then Ok (zdrop p file) else Ok (slice p n file).

(** container_doc.py:92-123 read_block; [coff] is container.offset, the file is read-only *)
Definition read_block (fm : cfmt) (coff : Z) (file : list N) (offset : Z) (max_data_length : option Z)
  : res (option block) :=
  let p := offset + coff in
  _ <- check_seek p ;;
  let buff := slice p (f_bhsize fm) file in
  match buff with
  | [] => Ok None
  | _ =>
    if zlen buff =? f_bhsize fm then
      let w := Z.of_nat (f_hexw fm) in
      doc_size <- int_of_bytes 16 (slice 2 w buff) ;;
      cur <- int_of_bytes 16 (slice (3 + w) w buff) ;;
      next <- int_of_bytes 16 (slice (4 + w + w) w buff) ;;
      let maxlen := match max_data_length with None => Z.min cur doc_size | Some m => m end in
      data <- read_at file (p + f_bhsize fm) (Z.min cur maxlen) ;;
      Ok (Some (mkblock doc_size cur next data))
    else Err StructError
  end.

(** math.ceil(a / b); exact while the quotient of the two numbers is exact enough as a
    float (numbers below 2^53) *)
Definition ceil_div (a b : Z) : Z := - ((- a) / b).

(** container_doc.py:55-81: state of the generator after its first two values, and full_size *)
Record gen := mkgen { g_doc : Z; g_first : list N; g_next : Z; g_full : Z }.
Definition gen_start (fm : cfmt) (coff : Z) (file : list N) (offset min_bs : Z) : res gen :=
  ob <- read_block fm coff file offset None ;;
  match ob with
  | None => Err AttributeError
  | Some b =>
    let doc_size := Z.max (b_doc b) min_bs in
    full <- (if b_cur b <? doc_size then
               if b_cur b =? 0 then Err ZeroDivisionError
               else Ok (doc_size + ceil_div (b_doc b) (b_cur b) * min_bs
                        + (if min_bs =? f_ibs fm then f_ibs fm else 0))
             else Ok (doc_size + f_bhsize fm)) ;;
    Ok (mkgen (b_doc b) (b_data b) (b_next b) full)
  end.

(** container_doc.py:83-90: the remaining chunks *)
Fixpoint gen_rest (fuel : nat) (fm : cfmt) (coff : Z) (file : list N) (left next : Z) : res (list (list N)) :=
  if (0 <? left) && negb (next =? f_end fm) then
    match fuel with
    | O => Err Timeout
    | S k =>
      ob <- read_block fm coff file next (Some left) ;;
      match ob with
      | None => Err AttributeError
      | Some b =>
        r <- gen_rest k fm coff file (left - zlen (b_data b)) (b_next b) ;;
        Ok (b_data b :: r)
      end
    end
  else Ok [].

(** all chunks of a generator joined (container_doc.py:33, container.py:104-105) *)
Definition gen_drain (fuel : nat) (fm : cfmt) (coff : Z) (file : list N) (g : gen) : res (list N) :=
  r <- gen_rest fuel fm coff file (g_doc g - zlen (g_first g)) (g_next g) ;;
  Ok (g_first g ++ concat r).

(** container_doc.py:31-33 Document.read: data, data_size, full_size *)
Definition doc_read (fuel : nat) (fm : cfmt) (coff : Z) (file : list N) (offset min_bs : Z)
  : res (list N * Z * Z) :=
  g <- gen_start fm coff file offset min_bs ;;
  d <- gen_drain fuel fm coff file g ;;
  Ok (d, g_doc g, g_full g).

(** container.py:126-140 read_header: default_block_size and count *)
Definition read_header (fm : cfmt) (coff : Z) (file : list N) : res (Z * Z) :=
  _ <- check_seek coff ;;
  let w := Z.of_nat (f_first_w fm) in
  let buff := slice coff (w + 12) file in
  if zlen buff =? w + 12 then
    Ok (unpack_int true (slice w 4 buff), unpack_int true (slice (w + 4) 4 buff))
  else Err StructError.

(** container.py:171-172: unpack each piece as a pair of offsets *)
Fixpoint unpack_pairs (fm : cfmt) (pieces : list (list N)) : res (list (Z * Z)) :=
  match pieces with
  | [] => Ok []
  | x :: rest =>
    let w := Z.of_nat (f_iw fm) in
    if zlen x =? 2 * w then
      r <- unpack_pairs fm rest ;;
      Ok ((unpack_int (f_isgn fm) (slice 0 w x), unpack_int (f_isgn fm) (slice w w x)) :: r)
    else Err StructError
  end.
(** container.py:171-172: split by the end marker, drop the last piece, unpack pairs *)
Definition parse_toc (fm : cfmt) (doc : list N) : res (list (Z * Z)) :=
  m <- pack_int (f_isgn fm) (f_iw fm) (f_end fm) ;;
  unpack_pairs fm (removelast (split_str m doc)).

(** str.partition('\0')[0] *)
Fixpoint before_nul (s : list N) : list N :=
  match s with [] => [] | c :: s' => if N.eqb c 0 then [] else c :: before_nul s' end.

(** File namedtuple (container.py:21); created/modified are kept as raw stamps, the
    conversion to datetime (parse_datetime) is modelled in Times.v *)
Record cfile := mkcfile { c_name : list N; c_size : Z; c_created : Z; c_modified : Z; c_gen : gen }.

(** container.py:180-185: unpack the description document *)
Definition parse_description (data : list N) (data_size : Z) : res (list N * Z * Z) :=
  let n := data_size - 20 in
  if (n <? 0) || negb (zlen data =? data_size) then Err StructError
  else
    nm <- utf16_decode (zdrop 20 data) ;;
    Ok (before_nul nm, unpack_int false (slice 0 8 data), unpack_int false (slice 8 8 data)).

(** container.py:175-195: the loop over the table of contents *)
Fixpoint read_entries (fuel : nat) (fm : cfmt) (dbs coff : Z) (file : list N) (toc : list (Z * Z))
    (size : Z) (files : list (list N * cfile)) : res (list (list N * cfile) * Z) :=
  match toc with
  | [] => Ok (files, size)
  | (attr_off, data_off) :: rest =>
    '(d, dsize, full1) <- doc_read fuel fm coff file attr_off 0 ;;
    '(name, ct, mt) <- parse_description d dsize ;;
    g <- gen_start fm coff file data_off dbs ;;
    read_entries fuel fm dbs coff file rest (size + full1 + g_full g)
      (dset name (mkcfile name (g_doc g) ct mt g) files)
  end.

(** container.py:48-62 read and 158-195 read_files: files and container.size *)
Definition read_container (fuel : nat) (fm : cfmt) (file : list N) (coff : Z)
  : res (list (list N * cfile) * Z) :=
  '(dbs, _) <- read_header fm coff file ;;
  if dbs =? 0 then Err BufferError
  else
    '(d, _, full) <- doc_read fuel fm coff file (f_hsize fm) (f_ibs fm) ;;
    toc <- parse_toc fm d ;;
    read_entries fuel fm dbs coff file toc (f_hsize fm + full) [].

(** container.py:64-105 extract(deflate=False, recursive=False): member name and bytes
    written, in order *)
Fixpoint extract_files (fuel : nat) (fm : cfmt) (coff : Z) (file : list N) (fs : list (list N * cfile))
  : res (list (list N * list N)) :=
  match fs with
  | [] => Ok []
  | (n, c) :: rest =>
    d <- gen_drain fuel fm coff file (c_gen c) ;;
    r <- extract_files fuel fm coff file rest ;;
    Ok ((n, d) :: r)
  end.

(** container_reader.py:48-58 detect_format *)
Definition detect_format (file : list N) (offset : Z) : res cfmt :=
  _ <- check_seek offset ;;
  let first := slice offset 8 file in
  if str_eqb (ztake 4 first) [255; 255; 255; 127]%N then Ok fmt32
  else match first with [] => Err EOFError | _ => Ok fmt64 end.

(** container_reader.py:27-43 the scan of extract(filename, folder, False, False);
    [n] bounds the number of containers.  An EOFError raised anywhere in the loop
    body ends the scan. *)
Fixpoint extract_scan (n fuel : nat) (file : list N) (offset : Z)
  : res (list (list (list N * list N))) :=
  match n with
  | O => Err Timeout
  | S k =>
    let body :=
      fm <- detect_format file offset ;;
      '(fs, size) <- read_container fuel fm file offset ;;
      out <- extract_files fuel fm offset file fs ;;
      if offset + size =? 0 then Err NotImplementedError else Ok (out, offset + size) in
    match body with
    | Err EOFError => Ok []
    | Err e => Err e
    | Ok (out, off') => r <- extract_scan k fuel file off' ;; Ok (out :: r)
    end
  end.
Definition extract_all (n fuel : nat) (file : list N) : res (list (list (list N * list N))) :=
  extract_scan n fuel file 0.
