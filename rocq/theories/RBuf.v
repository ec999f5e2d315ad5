(** Model of [RBuffer] (rbytes/rbuffer.rs). *)
From Verif Require Export Bytes Utf8.

(** rbytes/consts.rs *)
Definition kNullTag : Z := 0.
Definition kNewClassTag : Z := 4294967295.
Definition kClassMask : Z := 2147483648.
Definition kMapOffset : Z := 2.
Definition kByteCountMask : Z := 1073741824.

(** rbytes/rbuffer.rs 16-20, 100-107: [Rbuff] and [RBuffer].  A factory builder
    stored in [refs] is represented by the class name it builds. *)
Record rbuf := mkR {
  rp : bytes;               (* r.p *)
  rc : Z;                   (* r.c *)
  roff : Z;                 (* offset *)
  rrefs : list (Z * bytes); (* refs *)
  rskip : option Z          (* skip_header *)
}.

(** Readers: functions of a rbuffer.rs [RBuffer] *)
Definition R (A : Type) := M rbuf A.

(** rbuffer.rs 110-117 [RBuffer::new] *)
Definition r_new (data : bytes) (off : Z) : rbuf := mkR data 0 off [] None.

Definition r_set_c (r : rbuf) (c : Z) : rbuf := mkR (rp r) c (roff r) (rrefs r) (rskip r).
Definition r_set_refs (r : rbuf) x : rbuf := mkR (rp r) (rc r) (roff r) x (rskip r).
Definition r_set_skip (r : rbuf) x : rbuf := mkR (rp r) (rc r) (roff r) (rrefs r) x.

(** rbuffer.rs 124-126, 128-130, 132-134 *)
Definition r_len (r : rbuf) : Z := zlen (rp r) - rc r.
Definition r_is_empty (r : rbuf) : bool := r_len r <=? 0.
Definition r_pos (r : rbuf) : Z := rc r + roff r.

(** rbuffer.rs 136-140 [set_pos] *)
Definition set_pos (pos : Z) : R unit := fun r =>
  if 0 <=? pos - roff r then Ok (tt, r_set_c r (pos - roff r)) else Panic.

(** rbuffer.rs 142-150 [skip], [rewind] *)
Definition skip (s : Z) : R unit := fun r => set_pos (r_pos r + s) r.
Definition rewind (s : Z) : R unit := fun r => set_pos (r_pos r - s) r.

(** rbuffer.rs 29-45 [extract_const_n], [extract_as_array], [extract_n]:
    slicing out of bounds panics. *)
Definition extract (n : Z) : R bytes := fun r =>
  if (0 <=? rc r) && (0 <=? n) && (rc r + n <=? zlen (rp r))
  then Ok (zsub (rp r) (rc r) n, r_set_c r (rc r + n))
  else Panic.

(** rbuffer.rs 52: first piece of [split(|a| *a == 0)]. *)
Fixpoint until0 (l : bytes) : bytes :=
  match l with
  | [] => []
  | x :: r => if x =? 0 then [] else x :: until0 r
  end.

(** rbuffer.rs 47-59 [extract_until] *)
Definition extract_until (n : Z) : R bytes := fun r =>
  let m := Z.min (rc r + n) (zlen (rp r)) in
  if (0 <=? rc r) && (rc r <=? m) then
    let piece := until0 (zsub (rp r) (rc r) (m - rc r)) in
    Ok (piece, r_set_c r (rc r + zlen piece + 1))
  else Panic.

(** rbuffer.rs 153-252: primitive reads *)
Definition read_uint (n : nat) : R Z := b <- extract (Z.of_nat n) ;; ret (de b).
Definition read_sint (n : nat) : R Z := b <- extract (Z.of_nat n) ;; ret (sgn n (de b)).
Definition read_u8 := read_uint 1.
Definition read_u16 := read_uint 2.
Definition read_u32 := read_uint 4.
Definition read_u64 := read_uint 8.
Definition read_i8 := read_sint 1.
Definition read_i16 := read_sint 2.
Definition read_i32 := read_sint 4.
Definition read_i64 := read_sint 8.
(** f32/f64 are represented by their bit patterns. *)
Definition read_f32 := read_uint 4.
Definition read_f64 := read_uint 8.
(** rbuffer.rs 179-181 *)
Definition read_bool : R bool := x <- read_i8 ;; ret (negb (x =? 0)).

(** rbuffer.rs 169-171 *)
Definition read_array_u8 (n : Z) : R bytes := extract n.
(** rbuffer.rs 208-213, 227-232: loops over a slice of given length *)
Definition read_array_i32 (n : nat) : R (list Z) := repeatM n read_i32.
Definition read_array_i64 (n : nat) : R (list Z) := repeatM n read_i64.

(** rbuffer.rs 429-453 [read_string] *)
Definition read_string : R bytes :=
  u <- read_u8 ;;
  n <- (if u =? 255 then read_u32 else ret u) ;;
  if n =? 0 then ret []
  else b <- extract n ;; ret (if utf8_valid b then b else []).

(** rbuffer.rs 455-462 [read_cstring] *)
Definition read_cstring (n : Z) : R bytes :=
  b <- extract_until n ;; ret (if utf8_valid b then b else []).

(** rbytes/mod.rs 21-31 [Header] (reader side: version and length) *)
Record header := mkH { h_vers : Z; h_pos : Z; h_len : Z }.

(** rbuffer.rs 464-484 [read_header]; [bcnt & mask] as in the source. *)
Definition read_header : R header :=
  pos <- gets r_pos ;;
  bcnt <- read_u32 ;;
  if negb (Z.land bcnt kByteCountMask =? 0) then
    v <- read_u16 ;;
    ret (mkH (to_i16 v) pos (Z.ldiff bcnt kByteCountMask))
  else
    set_pos pos ;;;
    v <- read_u16 ;;
    ret (mkH (to_i16 v) pos 0).

(** rbuffer.rs 490-505 [skip_version]; only called with an empty class name
    (rbase/object.rs), where the version test is always satisfied. *)
Definition skip_version : R unit :=
  v <- read_i16 ;;
  if negb (Z.land v kByteCountMask =? 0)
  then read_u16 ;;; read_u16 ;;; ret tt
  else ret tt.

(** rbuffer.rs 506-508 *)
Definition set_skip_header (s : option Z) : R unit := modify (fun r => r_set_skip r s).

(** rbuffer.rs 513-534 [do_skip_header] *)
Definition do_skip_header : R unit := fun r =>
  match rskip r with
  | None => Ok (tt, r)
  | Some s =>
    if r_len r <? s then Ok (tt, r)
    else if (1 <? r_len r) && (1 <? s) then
      (h <- read_u8 ;; rewind 1 ;;;
       if h =? 64 then skip s else ret tt) r
    else skip s r
  end.

(** rbytes/mod.rs 506-534 version gates *)
Definition ensure_max {S} (v mx : Z) : M S unit :=
  if mx <? v then fail EVersionTooHigh else ret tt.
Definition ensure_min {S} (v mn : Z) : M S unit :=
  if v <=? mn then fail EVersionTooLow else ret tt.
