(** Dates, free segments, keys, directory records and the file header:
    riofs/utils.rs, riofs/blocks.rs, riofs/key.rs, riofs/dir.rs, riofs/file.rs. *)
From Verif Require Export Codec.

(** riofs/consts.rs *)
Definition kBEGIN : Z := 100.
Definition kStartBigFile : Z := 2000000000.

(** ** Dates *)

(** Calendar fields of a [chrono::DateTime<Utc>]. *)
Record civil := mkCivil { c_year : Z; c_month : Z; c_day : Z; c_hour : Z; c_min : Z; c_sec : Z }.

(** Proleptic Gregorian calendar of a Unix timestamp (what [chrono] computes for
    [year()], [month()], ... of [DateTime::from_timestamp]). *)
Definition civil_of_ts (ts : Z) : civil :=
  let days := ts / 86400 in
  let sod := ts mod 86400 in
  let z := days + 719468 in
  let era := z / 146097 in
  let doe := z - era * 146097 in
  let yoe := (doe - doe / 1460 + doe / 36524 - doe / 146096) / 365 in
  let y := yoe + era * 400 in
  let doy := doe - (365 * yoe + yoe / 4 - yoe / 100) in
  let mp := (5 * doy + 2) / 153 in
  let d := doy - (153 * mp + 2) / 5 + 1 in
  let m := if mp <? 10 then mp + 3 else mp - 9 in
  mkCivil (if m <=? 2 then y + 1 else y) m d (sod / 3600) (sod mod 3600 / 60) (sod mod 60).

(** riofs/utils.rs 17-21 [now]: a constant in this version of the library. *)
Definition now_ts : Z := 1657861095.

(** riofs/utils.rs 23-36 [datetime_to_u32]; [None] is the panic for years before 1995.
    All operations are on [u32]: bits shifted out are lost. *)
Definition datetime_to_u32 (c : civil) : option Z :=
  if c_year c <? 1995 then None
  else Some (to_u32 (Z.lor (Z.shiftl (c_year c - 1995) 26)
               (Z.lor (Z.shiftl (c_month c) 22)
               (Z.lor (Z.shiftl (c_day c) 17)
               (Z.lor (Z.shiftl (c_hour c) 12)
               (Z.lor (Z.shiftl (c_min c) 6) (c_sec c))))))).

Definition write_date (ts : Z) : W unit :=
  match datetime_to_u32 (civil_of_ts ts) with
  | Some u => write_u32 u
  | None => panic
  end.

(** The reader takes the word as seconds since the epoch
    ([DateTime::from_timestamp(r.read_u32()? as i64, 0).unwrap()]). *)
Definition read_date : R Z := read_u32.

(** The word stored for a timestamp. *)
Definition date_word (ts : Z) : Z :=
  match datetime_to_u32 (civil_of_ts ts) with Some u => u | None => 0 end.

Definition date_ok (ts : Z) : Prop := 1995 <= c_year (civil_of_ts ts).

Lemma now_ok : date_ok now_ts.
Proof. vm_compute. discriminate. Qed.

Lemma rt_date ts : date_ok ts -> rt 4 (write_date ts) read_date (date_word ts).
Proof.
  unfold date_ok, write_date, read_date, date_word, datetime_to_u32. intros H.
  destruct (Z.ltb_spec (c_year (civil_of_ts ts)) 1995); [lia|].
  apply rt_u32. red. unfold to_u32, wrap_u. apply Z.mod_pos_bound. reflexivity.
Qed.

(** ** Free segments *)

(** riofs/blocks.rs 8-13 *)
Record fseg := mkSeg { s_first : Z; s_last : Z }.

(** riofs/blocks.rs 19-24 [size_of] *)
Definition seg_size (s : fseg) : Z := if kStartBigFile <? s_last s then 18 else 10.

(** riofs/blocks.rs 50-74 [marshal] *)
Definition seg_marshal (s : fseg) : W unit :=
  let vers := if kStartBigFile <? s_last s then 1001 else 1 in
  write_i16 vers ;;;
  if 1000 <? vers then write_i64 (s_first s) ;;; write_i64 (s_last s)
  else write_i32 (to_i32 (s_first s)) ;;; write_i32 (to_i32 (s_last s)).

(** riofs/blocks.rs 27-47 [unmarshal] *)
Definition seg_unmarshal : R fseg :=
  vers <- read_i16 ;;
  first <- (if 1000 <? vers then read_i64 else read_i32) ;;
  last <- (if 1000 <? vers then read_i64 else read_i32) ;;
  ret (mkSeg first last).

(** Segments the format can represent. *)
Definition seg_ok (s : fseg) : Prop :=
  if kStartBigFile <? s_last s then is_i64 (s_first s) /\ is_i64 (s_last s)
  else is_i32 (s_first s) /\ is_i32 (s_last s).

(** Steps for sequential records. *)
Ltac rt_side := unfold is_u8, is_u16, is_u32, is_u64, is_i8, is_i16, is_i32, is_i64 in *; lia.
Ltac rt_atom :=
  first [ apply rt_u8 | apply rt_u16 | apply rt_u32 | apply rt_u64
        | apply rt_i8 | apply rt_i16 | apply rt_i32 | apply rt_i64
        | apply rt_f32 | apply rt_f64 | apply rt_string | apply rt_bool | apply rt_date ];
  try rt_side; auto.
Ltac rt_step := eapply rt_seq; [ rt_atom | cbv beta | reflexivity ].

Lemma rt_i16c z : is_i16 z -> rt 2 (write_i16 z) read_i16 z. Proof. apply rt_i16. Qed.

(** [w.write_i32(x as i32)] read as [i32 as i64]. *)
Lemma rt_i32_cast z : is_i32 z -> rt 4 (write_i32 (to_i32 z)) read_i32 z.
Proof. intros H. rewrite to_i32_id by exact H. now apply rt_i32. Qed.

(** A final write against "read then return". *)
Lemma rt_end {X V U} n (wm : W X) (rm : R V) (f : V -> U) v :
  rt n wm rm v -> rt n wm (x <- rm ;; ret (f x)) (f v).
Proof.
  intros (w & L & Hw & Hr). exists w. split; [exact L|]. split; [exact Hw|].
  intros sk. rewrite <- (app_nil_r w). eapply reads_bind; [apply Hr|apply reads_ret].
Qed.

Lemma seg_rt s : seg_ok s -> rt (seg_size s) (seg_marshal s) seg_unmarshal s.
Proof.
  unfold seg_ok, seg_size, seg_marshal, seg_unmarshal. destruct s as [a b]. cbn [s_first s_last].
  destruct (kStartBigFile <? b); intros [Ha Hb]; cbn [Z.ltb Z.compare Pos.compare Pos.compare_cont];
    (eapply rt_len; [|]).
  - rt_step. cbn [Z.ltb Z.compare Pos.compare Pos.compare_cont]. rt_step.
    apply (rt_end 8 _ _ (fun l => mkSeg a l)). now apply rt_i64.
  - reflexivity.
  - rt_step. cbn [Z.ltb Z.compare Pos.compare Pos.compare_cont].
    eapply rt_seq; [now apply rt_i32_cast| |reflexivity]. cbv beta.
    apply (rt_end 4 _ _ (fun l => mkSeg a l)). now apply rt_i32_cast.
  - reflexivity.
Qed.

(** ** Keys *)

(** riofs/key.rs 32-61; [left] is never set, so it is not represented. *)
Record key := mkKey {
  k_rvers : Z; k_nbytes : Z; k_objlen : Z; k_date : Z; k_keylen : Z; k_cycle : Z;
  k_seek : Z; k_pdir : Z; k_class : bytes; k_name : bytes; k_title : bytes;
  k_buffer : bytes }.

(** riofs/key.rs 63-81 *)
Definition key_default : key := mkKey 4 0 0 now_ts 0 1 100 0 [] [] [] [].

(** riofs/key.rs 141-194 [marshal] *)
Definition key_marshal (k : key) : W unit :=
  write_i32 (k_nbytes k) ;;;
  if k_nbytes k <? 0 then panic else
  write_i16 (if (kStartBigFile <? k_seek k) && (k_rvers k <? 1000) then k_rvers k + 1000 else k_rvers k) ;;;
  write_i32 (k_objlen k) ;;;
  write_date (k_date k) ;;;
  write_i16 (to_i16 (k_keylen k)) ;;;
  write_i16 (k_cycle k) ;;;
  (if 1000 <? k_rvers k then write_i64 (k_seek k) ;;; write_i64 (k_pdir k)
   else write_i32 (to_i32 (k_seek k)) ;;; write_i32 (to_i32 (k_pdir k))) ;;;
  write_string (k_class k) ;;;
  write_string (k_name k) ;;;
  write_string (k_title k).

(** riofs/key.rs 83-139 [unmarshal] into a default key ([read_object_into]). *)
Definition key_unmarshal : R key :=
  nb <- read_i32 ;;
  if nb <? 0 then ret (mkKey 4 nb 0 now_ts 0 1 100 0 (bs "[GAP]") [] [] [])
  else
  rv <- read_i16 ;;
  ol <- read_i32 ;;
  dt <- read_date ;;
  kl <- read_i16 ;;
  cy <- read_i16 ;;
  sk <- (if 1000 <? rv then read_i64 else read_i32) ;;
  pd <- (if 1000 <? rv then read_i64 else read_i32) ;;
  cl <- read_string ;;
  nm <- read_string ;;
  ti <- read_string ;;
  ret (mkKey rv nb ol dt kl cy sk pd cl nm ti []).

(** riofs/key.rs 513-536 [key_len_for]; [big] is
    [f.dir().is_big_file() || f.is_big_file()]. *)
Definition key_len_for (name title class : bytes) (big : bool) : Z :=
  22 + (if big then 8 else 0) + 4
  + tstring_sizeof class + tstring_sizeof name + tstring_sizeof title
  + (if beqb class (bs "TBasket") then 19 else 0).

(** Keys the format can represent. *)
Definition key_ok (k : key) : Prop :=
  0 <= k_nbytes k < 2147483648 /\ is_i16 (k_rvers k) /\ is_i32 (k_objlen k) /\ date_ok (k_date k)
  /\ is_i16 (k_keylen k) /\ is_i16 (k_cycle k)
  /\ (kStartBigFile < k_seek k -> 1000 <= k_rvers k)
  /\ (if 1000 <? k_rvers k then is_i64 (k_seek k) /\ is_i64 (k_pdir k)
      else is_i32 (k_seek k) /\ is_i32 (k_pdir k))
  /\ str_ok (k_class k) /\ str_ok (k_name k) /\ str_ok (k_title k).

(** Number of bytes of a key header. *)
Definition key_hdr_len (k : key) : Z :=
  26 + (if 1000 <? k_rvers k then 8 else 0)
  + tstring_sizeof (k_class k) + tstring_sizeof (k_name k) + tstring_sizeof (k_title k).

(** What the reader makes of a written key: everything but the date, which it
    takes for a Unix timestamp, and the buffer, which is not part of the header. *)
Definition key_seen (k : key) : key :=
  mkKey (k_rvers k) (k_nbytes k) (k_objlen k) (date_word (k_date k)) (k_keylen k) (k_cycle k)
        (k_seek k) (k_pdir k) (k_class k) (k_name k) (k_title k) [].

Lemma if_seq_assoc {S A B} (b : bool) (m1 m2 : M S A) (k : M S B) s :
  ((if b then m1 else m2) ;;; k) s = (if b then m1 ;;; k else m2 ;;; k) s.
Proof. destruct b; reflexivity. Qed.

Lemma key_rt k : key_ok k -> rt (key_hdr_len k) (key_marshal k) key_unmarshal (key_seen k).
Proof.
  intros (Hn & Hr & Ho & Hd & Hkl & Hc & Hbig & Hs & Sc & Sn & St).
  unfold key_marshal, key_unmarshal, key_hdr_len, key_seen.
  destruct k as [rv nb ol dt kl cy sk pd cl nm ti bf].
  cbn [k_rvers k_nbytes k_objlen k_date k_keylen k_cycle k_seek k_pdir k_class k_name k_title k_buffer] in *.
  pose (ls := if 1000 <? rv then 16 else 8).
  eapply rt_len with (n := 4 + (2 + (4 + (4 + (2 + (2 + (ls + (tstring_sizeof cl + (tstring_sizeof nm + tstring_sizeof ti))))))))).
  - rt_step. destruct (Z.ltb_spec nb 0); [lia|].
    replace ((kStartBigFile <? sk) && (rv <? 1000)) with false by (symmetry; lia).
    rt_step. rt_step. rt_step. rewrite to_i16_id by exact Hkl. rt_step. rt_step.
    assert (Tail : forall s p, rt (tstring_sizeof cl + (tstring_sizeof nm + tstring_sizeof ti))
      (write_string cl ;;; write_string nm ;;; write_string ti)
      (cl0 <- read_string ;; nm0 <- read_string ;; ti0 <- read_string ;;
       ret (mkKey rv nb ol (date_word dt) kl cy s p cl0 nm0 ti0 []))
      (mkKey rv nb ol (date_word dt) kl cy s p cl nm ti [])).
    { intros s p. rt_step. rt_step.
      apply (rt_end _ _ _ (fun t => mkKey rv nb ol (date_word dt) kl cy s p cl nm t [])).
      now apply rt_string. }
    unfold ls in *; destruct (1000 <? rv); destruct Hs as [Hs1 Hs2].
    + apply rt_assoc.
      eapply rt_seq; [now apply rt_i64| |].
      { cbv beta. eapply rt_seq; [now apply rt_i64|cbv beta; apply Tail|reflexivity]. }
      lia.
    + apply rt_assoc.
      eapply rt_seq; [now apply rt_i32_cast| |].
      { cbv beta. eapply rt_seq; [now apply rt_i32_cast|cbv beta; apply Tail|reflexivity]. }
      lia.
  - unfold ls. destruct (1000 <? rv); lia.
Qed.
