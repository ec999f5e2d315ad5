(** Directory record and file header: riofs/dir.rs, riofs/file.rs. *)
From Verif Require Export Key.

(** ** Directory record *)

(** riofs/dir.rs 14-60.  [d_rvers], [d_uuid], [d_name], [d_title] are the fields
    of the nested [TDirectory]/[Named]. *)
Record dirf := mkDir {
  d_rvers : Z; d_ctime : Z; d_mtime : Z; d_nbkeys : Z; d_nbname : Z;
  d_seekdir : Z; d_seekparent : Z; d_seekkeys : Z; d_uuid : bytes;
  d_class : bytes; d_name : bytes; d_title : bytes; d_keys : list key }.

(** riofs/dir.rs 56-77, 86-90 [TDirectoryFile::new]; the uuid is nil. *)
Definition dir_new (name : bytes) : dirf :=
  mkDir 5 now_ts now_ts 0 0 0 0 0 (repeat 0 16) [] name [] [].

(** riofs/dir.rs 375-377 *)
Definition dir_big (d : dirf) : bool := 1000 <? d_rvers d.

(** riofs/dir.rs 436-482 [marshal]; [rvers::UUID] is 1. *)
Definition dir_marshal (d : dirf) : W unit :=
  write_i16 (d_rvers d) ;;;
  write_date (d_ctime d) ;;;
  write_date (d_mtime d) ;;;
  write_i32 (d_nbkeys d) ;;;
  write_i32 (d_nbname d) ;;;
  (if dir_big d then
     write_i64 (d_seekdir d) ;;; write_i64 (d_seekparent d) ;;; write_i64 (d_seekkeys d)
   else
     write_i32 (to_i32 (d_seekdir d)) ;;; write_i32 (to_i32 (d_seekparent d)) ;;;
     write_i32 (to_i32 (d_seekkeys d))) ;;;
  write_i16 1 ;;;
  put (d_uuid d).

(** riofs/dir.rs 380-434 [unmarshal] into a default record. *)
Definition dir_unmarshal : R dirf :=
  version <- read_i16 ;;
  ctime <- read_date ;;
  mtime <- read_date ;;
  nbkeys <- read_i32 ;;
  nbname <- read_i32 ;;
  seekdir <- (if 1000 <? version then read_i64 else read_i32) ;;
  seekparent <- (if 1000 <? version then read_i64 else read_i32) ;;
  seekkeys <- (if 1000 <? version then read_i64 else read_i32) ;;
  read_u16 ;;;
  uuid <- read_array_u8 16 ;;
  ret (mkDir version ctime mtime nbkeys nbname seekdir seekparent seekkeys uuid [] [] [] []).

(** riofs/dir.rs 345-368 [record_size] *)
Definition record_size (version : Z) : Z :=
  2 + 4 + 4 + 4 + 4 + (if 40000 <=? version then 24 else 12) + 18.

(** Records the format can represent. *)
Definition dir_ok (d : dirf) : Prop :=
  is_i16 (d_rvers d) /\ date_ok (d_ctime d) /\ date_ok (d_mtime d)
  /\ is_i32 (d_nbkeys d) /\ is_i32 (d_nbname d)
  /\ (if dir_big d then is_i64 (d_seekdir d) /\ is_i64 (d_seekparent d) /\ is_i64 (d_seekkeys d)
      else is_i32 (d_seekdir d) /\ is_i32 (d_seekparent d) /\ is_i32 (d_seekkeys d))
  /\ zlen (d_uuid d) = 16.

(** Length of the record actually written. *)
Definition dir_len (d : dirf) : Z := if dir_big d then 60 else 48.

(** What the reader makes of the record: names and keys are stored elsewhere,
    dates are taken for Unix timestamps. *)
Definition dir_seen (d : dirf) : dirf :=
  mkDir (d_rvers d) (date_word (d_ctime d)) (date_word (d_mtime d)) (d_nbkeys d) (d_nbname d)
        (d_seekdir d) (d_seekparent d) (d_seekkeys d) (d_uuid d) [] [] [] [].

Lemma rt_bytes_n n w : zlen w = n -> rt n (put w) (extract n) w.
Proof. intros <-. apply rt_bytes. Qed.

Lemma dir_rt d : dir_ok d -> rt (dir_len d) (dir_marshal d) dir_unmarshal (dir_seen d).
Proof.
  intros (Hv & Hc & Hm & Hk & Hn & Hs & Hu).
  unfold dir_marshal, dir_unmarshal, dir_seen, dir_len.
  destruct d as [rv ct mt nk nn sd sp sk uu cl nm ti ks].
  unfold dir_big in *.
  cbn [d_rvers d_ctime d_mtime d_nbkeys d_nbname d_seekdir d_seekparent d_seekkeys d_uuid] in *.
  pose (ls := if 1000 <? rv then 24 else 12).
  eapply rt_len with (n := 2 + (4 + (4 + (4 + (4 + (ls + (2 + 16))))))).
  - rt_step. rt_step. rt_step. rt_step. rt_step.
    assert (Tail : forall a b c, rt (2 + 16)
      (write_i16 1 ;;; put uu)
      (read_u16 ;;; uuid <- read_array_u8 16 ;;
       ret (mkDir rv (date_word ct) (date_word mt) nk nn a b c uuid [] [] [] []))
      (mkDir rv (date_word ct) (date_word mt) nk nn a b c uu [] [] [] [])).
    { intros a b c. eapply rt_seq; [apply (rt_u16 1); rt_side| |reflexivity]. cbv beta.
      apply (rt_end _ _ _ (fun u => mkDir rv (date_word ct) (date_word mt) nk nn a b c u [] [] [] [])).
      now apply rt_bytes_n. }
    unfold ls in *. destruct (1000 <? rv); destruct Hs as (Hs1 & Hs2 & Hs3).
    + apply rt_assoc. eapply rt_seq; [now apply rt_i64| |]; cbv beta.
      { apply rt_assoc. eapply rt_seq; [now apply rt_i64| |]; cbv beta.
        { eapply rt_seq; [now apply rt_i64|cbv beta; apply Tail|]. reflexivity. }
        reflexivity. }
      reflexivity.
    + apply rt_assoc. eapply rt_seq; [now apply rt_i32_cast| |]; cbv beta.
      { apply rt_assoc. eapply rt_seq; [now apply rt_i32_cast| |]; cbv beta.
        { eapply rt_seq; [now apply rt_i32_cast|cbv beta; apply Tail|]. reflexivity. }
        reflexivity. }
      reflexivity.
  - unfold ls. destruct (1000 <? rv); reflexivity.
Qed.

(** ** File header *)

(** riofs/file.rs 38-52 *)
Record fhdr := mkHdr {
  fh_version : Z; fh_begin : Z; fh_end : Z; fh_seekfree : Z; fh_nbfree : Z; fh_nfree : Z;
  fh_nbname : Z; fh_units : Z; fh_comp : Z; fh_seekinfo : Z; fh_nbinfo : Z; fh_uuid : bytes }.

(** riofs/file.rs 206-213 *)
Definition fhdr_new : fhdr := mkHdr 63002 kBEGIN kBEGIN 0 0 0 0 4 1 0 0 (repeat 0 16).

(** riofs/file.rs 482-491: does the header use 64-bit pointers?  [is_big_file] is
    [end > kStartBigFile]. *)
Definition fhdr_big (h : fhdr) : bool :=
  (kStartBigFile <? fh_end h) || (kStartBigFile <? fh_seekfree h) || (kStartBigFile <? fh_seekinfo h).

(** riofs/file.rs 490: the write also updates the field [units]. *)
Definition fhdr_units (h : fhdr) : fhdr :=
  if fhdr_big h then
    mkHdr (fh_version h) (fh_begin h) (fh_end h) (fh_seekfree h) (fh_nbfree h) (fh_nfree h)
          (fh_nbname h) 8 (fh_comp h) (fh_seekinfo h) (fh_nbinfo h) (fh_uuid h)
  else h.

(** riofs/file.rs 36 [ROOT_MAGIC] *)
Definition root_magic : bytes := bs "root".

(** riofs/file.rs 480-521: the bytes of the header ([h] has its units set). *)
Definition fhdr_marshal (h : fhdr) : W unit :=
  let version := if fhdr_big h && (fh_version h <? 1000000) then fh_version h + 1000000
                 else fh_version h in
  put root_magic ;;;
  write_i32 version ;;;
  write_i32 (to_i32 (fh_begin h)) ;;;
  (if version <? 1000000 then
     write_i32 (to_i32 (fh_end h)) ;;; write_i32 (to_i32 (fh_seekfree h)) ;;;
     write_i32 (fh_nbfree h) ;;; write_i32 (fh_nfree h) ;;; write_i32 (fh_nbname h) ;;;
     write_u8 (fh_units h) ;;; write_i32 (fh_comp h) ;;;
     write_i32 (to_i32 (fh_seekinfo h)) ;;; write_i32 (fh_nbinfo h)
   else
     write_i64 (fh_end h) ;;; write_i64 (fh_seekfree h) ;;;
     write_i32 (fh_nbfree h) ;;; write_i32 (fh_nfree h) ;;; write_i32 (fh_nbname h) ;;;
     write_u8 (fh_units h) ;;; write_i32 (fh_comp h) ;;;
     write_i64 (fh_seekinfo h) ;;; write_i32 (fh_nbinfo h)) ;;;
  write_i16 1 ;;;
  put (fh_uuid h).

(** riofs/file.rs 393-440: the header part of [read_header]; [Z.rem] is Rust's [%]. *)
Definition fhdr_unmarshal : R fhdr :=
  magic <- read_array_u8 4 ;;
  if negb (beqb magic root_magic) then panic else
  version <- read_i32 ;;
  beg <- read_i32 ;;
  e <- (if 1000000 <? version then read_i64 else read_i32) ;;
  seekfree <- (if 1000000 <? version then read_i64 else read_i32) ;;
  nbfree <- read_i32 ;;
  nfree <- read_i32 ;;
  nbname <- read_i32 ;;
  units <- read_u8 ;;
  comp <- read_i32 ;;
  seekinfo <- (if 1000000 <? version then read_i64 else read_i32) ;;
  nbinfo <- read_i32 ;;
  read_u16 ;;;
  uuid <- read_array_u8 16 ;;
  ret (mkHdr (Z.rem version 1000000) beg e seekfree nbfree nfree nbname units comp seekinfo nbinfo uuid).

(** Headers the format can represent. *)
Definition fhdr_ok (h : fhdr) : Prop :=
  0 < fh_version h < 1000000 /\ is_i32 (fh_begin h)
  /\ (if fhdr_big h then is_i64 (fh_end h) /\ is_i64 (fh_seekfree h) /\ is_i64 (fh_seekinfo h)
      else is_i32 (fh_end h) /\ is_i32 (fh_seekfree h) /\ is_i32 (fh_seekinfo h))
  /\ is_i32 (fh_nbfree h) /\ is_i32 (fh_nfree h) /\ is_i32 (fh_nbname h)
  /\ is_u8 (fh_units h) /\ is_i32 (fh_comp h) /\ is_i32 (fh_nbinfo h) /\ zlen (fh_uuid h) = 16.

(** Length of the header actually written. *)
Definition fhdr_len (h : fhdr) : Z := if fhdr_big h then 75 else 63.

Lemma fhdr_rt h : fhdr_ok h -> rt (fhdr_len h) (fhdr_marshal h) fhdr_unmarshal h.
Proof.
  intros (Hv & Hb & Hs & Hnf & Hn & Hnn & Hu & Hc & Hni & Huu).
  unfold fhdr_marshal, fhdr_unmarshal, fhdr_len.
  pose (B := fhdr_big h). fold B in Hs |- *.
  destruct h as [ve be en sf nbf nf nbn un co si nbi uu].
  cbn [fh_version fh_begin fh_end fh_seekfree fh_nbfree fh_nfree fh_nbname fh_units fh_comp
       fh_seekinfo fh_nbinfo fh_uuid] in *.
  assert (Tail : forall v, rt (2 + 16) (write_i16 1 ;;; put uu)
      (read_u16 ;;; uuid <- read_array_u8 16 ;;
       ret (mkHdr v be en sf nbf nf nbn un co si nbi uuid))
      (mkHdr v be en sf nbf nf nbn un co si nbi uu)).
  { intros v. eapply rt_seq; [apply (rt_u16 1); rt_side| |reflexivity]. cbv beta.
    apply (rt_end _ _ _ (fun u => mkHdr v be en sf nbf nf nbn un co si nbi u)).
    now apply rt_bytes_n. }
  cbv zeta. clearbody B.
  replace (ve <? 1000000) with true by (symmetry; lia). rewrite andb_true_r.
  assert (Hm : zlen root_magic = 4) by reflexivity.
  destruct B; destruct Hs as (H1 & H2 & H3).
  - replace (ve + 1000000 <? 1000000) with false by (symmetry; lia).
    eapply rt_len with (n := 4 + (4 + (4 + (8 + (8 + (4 + (4 + (4 + (1 + (4 + (8 + (4 + (2 + 16))))))))))))); [|reflexivity].
    eapply rt_seq; [apply (rt_bytes_n 4); exact Hm| |reflexivity]. cbv beta.
    rewrite beqb_refl. cbn [negb].
    rt_step. replace (1000000 <? ve + 1000000) with true by (symmetry; lia).
    eapply rt_seq; [now apply rt_i32_cast| |reflexivity]. cbv beta.
    replace (Z.rem (ve + 1000000) 1000000) with ve
      by (rewrite Z.rem_mod_nonneg by lia; lia).
    do 8 (apply rt_assoc; rt_step). rt_step. apply Tail.
  - replace (ve <? 1000000) with true by (symmetry; lia).
    eapply rt_len with (n := 4 + (4 + (4 + (4 + (4 + (4 + (4 + (4 + (1 + (4 + (4 + (4 + (2 + 16))))))))))))); [|reflexivity].
    eapply rt_seq; [apply (rt_bytes_n 4); exact Hm| |reflexivity]. cbv beta.
    rewrite beqb_refl. cbn [negb].
    rt_step. replace (1000000 <? ve) with false by (symmetry; lia).
    eapply rt_seq; [now apply rt_i32_cast| |reflexivity]. cbv beta.
    replace (Z.rem ve 1000000) with ve
      by (rewrite Z.rem_mod_nonneg by lia; lia).
    apply rt_assoc. eapply rt_seq; [now apply rt_i32_cast| |reflexivity]. cbv beta.
    apply rt_assoc. eapply rt_seq; [now apply rt_i32_cast| |reflexivity]. cbv beta.
    do 5 (apply rt_assoc; rt_step).
    apply rt_assoc. eapply rt_seq; [now apply rt_i32_cast| |reflexivity]. cbv beta.
    rt_step. apply Tail.
Qed.
