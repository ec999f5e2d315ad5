(** Model of [WBuffer] (rbytes/wbuffer.rs). *)
From Verif Require Export RBuf.

(** rbytes/wbuffer.rs 8-12, 28-34.  The field [w.c] always equals [w.p.len()]
    because the only constructor used is [WBuffer::new] (324-331), so it is not
    represented.  [wrefp] maps object identities, [wrefs] class names. *)
Record wbuf := mkW {
  wp : bytes;
  woff : Z;
  wrefp : list (Z * Z);
  wrefs : list (bytes * Z)
}.

(** Writers: functions of a wbuffer.rs [WBuffer] *)
Definition W (A : Type) := M wbuf A.

(** wbuffer.rs 324-331 *)
Definition w_new (off : Z) : wbuf := mkW [] off [] [].

(** wbuffer.rs 354-356, 229-231 *)
Definition wpos (s : wbuf) : Z := zlen (wp s) + woff s.
Definition wlen (s : wbuf) : Z := zlen (wp s).

Definition w_set_p (s : wbuf) p := mkW p (woff s) (wrefp s) (wrefs s).
Definition w_app (s : wbuf) (w : bytes) : wbuf := w_set_p s (wp s ++ w).

(** wbuffer.rs 15-19, 37-39 [write_array_u8] *)
Definition put (w : bytes) : W unit := fun s => Ok (tt, w_app s w).

(** wbuffer.rs 45-88: primitive writes ([to_be_bytes]). *)
Definition write_int (n : nat) (z : Z) : W unit := put (be n z).
Definition write_u8 := write_int 1.
Definition write_u16 := write_int 2.
Definition write_u32 := write_int 4.
Definition write_u64 := write_int 8.
Definition write_i8 := write_int 1.
Definition write_i16 := write_int 2.
Definition write_i32 := write_int 4.
Definition write_i64 := write_int 8.
Definition write_f32 := write_int 4.
Definition write_f64 := write_int 8.
Definition write_bool (b : bool) : W unit := write_u8 (if b then 1 else 0).

(** wbuffer.rs 90-137 *)
Definition write_array_i32 (l : list Z) : W unit := iterM write_i32 l.
Definition write_array_i64 (l : list Z) : W unit := iterM write_i64 l.

(** wbuffer.rs 139-153 [write_string]: [len as i32]. *)
Definition write_string (s : bytes) : W unit :=
  let len := to_i32 (zlen s) in
  if len <? 255 then
    write_u8 (to_u8 len) ;;; (if 0 <? len then put s else ret tt)
  else write_u8 255 ;;; write_u32 (to_u32 len) ;;; put s.

(** Replacement of bytes in place. *)
Definition patch (l : bytes) (pos : Z) (w : bytes) : bytes :=
  firstn (Z.to_nat pos) l ++ w ++ skipn (Z.to_nat pos + length w) l.

(** wbuffer.rs 21-25, 180-183 [write_in_place]: the subtraction on [usize] and
    the assertion panic. *)
Definition write_in_place (w : bytes) (pos : Z) : W unit := fun s =>
  let p := pos - woff s in
  if (0 <=? p) && (p + zlen w <=? zlen (wp s))
  then Ok (tt, w_set_p s (patch (wp s) p w))
  else Panic.

(** wbuffer.rs 155-165 [write_header]; only the position is kept. *)
Definition write_header (vers : Z) : W Z :=
  pos <- gets wpos ;; write_u32 0 ;;; write_u16 vers ;;; ret pos.

(** wbuffer.rs 167-178 [set_header] *)
Definition set_header (hpos : Z) : W Z :=
  cur <- gets wpos ;;
  let cnt := cur - hpos - 4 in
  write_in_place (be 4 (Z.lor cnt kByteCountMask)) hpos ;;;
  ret (cnt + 4).

(** wbuffer.rs 185-188 *)
Definition write_object_nil : W unit := write_u32 0.

(** wbuffer.rs 299-302 *)
Definition write_cstring (s : bytes) : W unit := put s ;;; write_u8 0.

(** [let len = w.len() - 1] on [usize] at the start of several [marshal]
    functions: panics (debug profile) on an empty buffer. *)
Definition len_minus_1 : W unit := fun s =>
  if zlen (wp s) =? 0 then Panic else Ok (tt, s).

(** wbuffer.rs 233-297 [write_class]; [marsh] is [obj.marshal(self)]. *)
Definition write_class (beg : Z) (class : bytes) (addr : Z) (marsh : W Z) : W Z :=
  len_minus_1 ;;;
  start <- gets wpos ;;
  st <- gets (fun s => s) ;;
  match alookup Z.eqb addr (wrefp st) with
  | Some ref64 =>
    write_u32 ref64 ;;;
    e <- gets wpos ;;
    ret (Z.lor (e - start) kByteCountMask)
  | None =>
    match alookup beqb class (wrefs st) with
    | Some ref64 =>
      write_u32 (Z.lor (to_u32 ref64) kClassMask) ;;;
      marsh ;;;
      modify (fun s => mkW (wp s) (woff s) ((addr, beg + kMapOffset) :: wrefp s) (wrefs s)) ;;;
      e <- gets wpos ;;
      ret (Z.lor (e - start) kByteCountMask)
    | None =>
      write_u32 kNewClassTag ;;;
      write_cstring class ;;;
      modify (fun s => mkW (wp s) (woff s) ((addr, beg + kMapOffset) :: wrefp s)
                           ((class, Z.lor (start + kMapOffset) kClassMask) :: wrefs s)) ;;;
      marsh ;;;
      e <- gets wpos ;;
      ret (Z.lor (e - start) kByteCountMask)
    end
  end.

(** wbuffer.rs 190-227 [write_object_any] *)
Definition write_object_any (class : bytes) (addr : Z) (marsh : W Z) : W Z :=
  beg <- gets wpos ;;
  len_minus_1 ;;;
  write_i32 0 ;;;
  bcnt <- write_class beg class addr marsh ;;
  write_in_place (be 4 (to_u32 bcnt)) beg ;;;
  e <- gets wpos ;;
  ret (e - beg).

(** root.rs 7-14 [tstring_sizeof] *)
Definition tstring_sizeof (s : bytes) : Z :=
  let n := to_i32 (zlen s) in
  if 254 <? n then n + 5 else n + 1.
