(** Binary file objects opened for reading and writing: contents and position. *)
From Verif Require Import PyBase.
Open Scope Z_scope.

Record pyfile := mkfile { fdata : list N; fpos : Z }.

(** open(..., 'w+b') / TemporaryFile(): empty *)
Definition fempty : pyfile := mkfile [] 0.
(** f.seek(p) *)
Definition fseek (p : Z) (f : pyfile) : pyfile := mkfile (fdata f) p.
(** helper.file_size(f) (helper.py:210-223): seeks to the end, tells, seeks back *)
Definition fsize (f : pyfile) : Z := zlen (fdata f).
(** f.seek(0, SEEK_END) *)
Definition fseek_end (f : pyfile) : pyfile := mkfile (fdata f) (fsize f).
(** f.write(bs): overwrite at the position; a gap is filled with zero bytes *)
Definition fwrite (bs : list N) (f : pyfile) : pyfile :=
  match bs with
  | [] => f
  | _ => mkfile (ztake (fpos f) (fdata f) ++ zeros (fpos f - fsize f) ++ bs
                   ++ zdrop (fpos f + zlen bs) (fdata f))
                (fpos f + zlen bs)
  end.

(** the bytes [bs] are found at offset [off] *)
Definition at_ (off : Z) (bs file : list N) : Prop :=
  exists pre post, file = pre ++ bs ++ post /\ zlen pre = off.

(** file[off : off+n] *)
Definition slice (off n : Z) (file : list N) : list N := ztake n (zdrop off file).

Lemma fwrite_end bs f : fpos f = fsize f -> fdata (fwrite bs f) = fdata f ++ bs /\ fpos (fwrite bs f) = fsize f + zlen bs.
Proof.
  intros H. unfold fwrite. destruct bs as [|b bs].
  - rewrite app_nil_r. split; [reflexivity|]. rewrite zlen_nil; lia.
  - cbn [fdata fpos]. rewrite H. split; [|reflexivity]. unfold fsize.
    rewrite ztake_all by lia. rewrite zeros_nil by lia.
    rewrite zdrop_all by (pose proof (zlen_nonneg (b :: bs)); lia).
    rewrite app_nil_r. reflexivity.
Qed.

Lemma fwrite_over bs f a old b : fdata f = a ++ old ++ b -> fpos f = zlen a -> zlen old = zlen bs ->
  fdata (fwrite bs f) = a ++ bs ++ b /\ fpos (fwrite bs f) = zlen a + zlen bs.
Proof.
  intros Hd Hp Hl. unfold fwrite. destruct bs as [|x bs].
  - apply zlen_0 in Hl. subst old. split; [exact Hd|]. rewrite Hp, zlen_nil; lia.
  - cbn [fdata fpos]. rewrite Hp. split; [|reflexivity]. unfold fsize. rewrite Hd.
    rewrite ztake_app_exact by reflexivity.
    rewrite zeros_nil.
    2: { rewrite !zlen_app. pose proof (zlen_nonneg old). pose proof (zlen_nonneg b). lia. }
    rewrite (app_assoc a old b), zdrop_app_exact by (rewrite zlen_app; lia). reflexivity.
Qed.

Lemma at_slice off n bs file : at_ off bs file -> 0 <= n <= zlen bs -> slice off n file = ztake n bs.
Proof.
  intros (pre & post & -> & Hp) Hn. unfold slice.
  rewrite zdrop_app_exact by exact Hp. apply ztake_app_le; lia.
Qed.
Lemma at_app_l off a b file : at_ off (a ++ b) file -> at_ off a file.
Proof. intros (pre & post & -> & Hp). exists pre, (b ++ post). split; [rewrite <- app_assoc; reflexivity|exact Hp]. Qed.
Lemma at_app_r off a b file : at_ off (a ++ b) file -> at_ (off + zlen a) b file.
Proof.
  intros (pre & post & -> & Hp). exists (pre ++ a), post. split; [rewrite <- !app_assoc; reflexivity|].
  rewrite zlen_app; lia.
Qed.
Lemma at_bound off bs file : at_ off bs file -> 0 <= off /\ off + zlen bs <= zlen file.
Proof.
  intros (pre & post & -> & Hp). rewrite !zlen_app.
  pose proof (zlen_nonneg pre). pose proof (zlen_nonneg post). lia.
Qed.
Lemma at_here pre bs post : at_ (zlen pre) bs (pre ++ bs ++ post).
Proof. exists pre, post; auto. Qed.
Lemma at_shift_app off bs f g : at_ off bs f -> at_ off bs (f ++ g).
Proof. intros (pre & post & -> & Hp). exists pre, (post ++ g). split; [rewrite <- !app_assoc; reflexivity|exact Hp]. Qed.
Lemma at_shift_pre off bs f p : at_ off bs f -> at_ (zlen p + off) bs (p ++ f).
Proof.
  intros (pre & post & -> & Hp). exists (p ++ pre), post. split; [rewrite <- !app_assoc; reflexivity|].
  rewrite zlen_app; lia.
Qed.
