(** Decompression: rcompress.rs. *)
From Verif Require Export TreeObj.

(** The decoders are those of other libraries (flate2, xz2, lz4): nothing is assumed
    about them here.  [zlib_out s] and [xz_out s] are the bytes that a decoder over [s]
    gives before it ends or fails; [lz4_out s n] is what is decoded from the block [s]
    into a buffer of [n] bytes, [None] if the library refuses it. *)
Class decoders := mkDecoders {
  zlib_out : bytes -> res bytes;
  xz_out : bytes -> res bytes;
  lz4_out : bytes -> Z -> res (option bytes)
}.
(** Without decoders, which is the default, what they give is not known. *)
#[global] Instance no_decoders : decoders := mkDecoders (fun _ => Unmodelled) (fun _ => Unmodelled) (fun _ _ => Unmodelled).

(** [read_exact] into a buffer of [n] bytes *)
Definition read_exact (n : Z) (out : bytes) : res bytes :=
  if zlen out <? n then Err EIo else Ok (zsub out 0 n).

(** rcompress.rs 43-54 [kind_of] and 29-41 [Kind] *)
Inductive zkind := ZZlib | ZLzma | ZLz4 | ZOther.
Definition kind_of (hdr : bytes) : zkind :=
  match hdr with
  | 90 :: 76 :: _ => ZZlib
  | 88 :: 90 :: _ => ZLzma
  | 76 :: 52 :: _ => ZLz4
  | _ => ZOther
  end.
(** rcompress.rs 71 *)
Definition tgt_size (hdr : bytes) : Z := nth 6 hdr 0 + 256 * nth 7 hdr 0 + 65536 * nth 8 hdr 0.

(** rcompress.rs 56-113 [decompress]: the loop.  The decoders work on copies of the
    slice [src], so that only the header is consumed in each round.  [n] is the length
    of [dst]. *)
Fixpoint decompress_loop {L : decoders} (fuel : nat) (n fin : Z) (dst src : bytes) : res bytes :=
  if n <=? fin then Ok dst else
  match fuel with
  | O => OutOfFuel
  | S f =>
      if zlen src <? 9 then Err EIo else
      let hdr := firstn 9 src in
      let src := skipn 9 src in
      match kind_of hdr with
      | ZZlib => out <-? zlib_out src ;; read_exact n out
      | ZLzma => out <-? xz_out src ;; dst <-? read_exact n out ;; decompress_loop f n (fin + tgt_size hdr) dst src
      | ZLz4 => if zlen src <? 8 then Panic else
                out <-? lz4_out (skipn 8 src) n ;;
                match out with
                | None => Err EIo
                | Some out => Ok (firstn (Z.to_nat n) (out ++ skipn (length out) dst))
                end
      | ZOther => Panic
      end
  end.
Definition decompress {L : decoders} (n : Z) (src : bytes) : res bytes :=
  decompress_loop (S (length src)) n 0 (repeat 0 (Z.to_nat n)) src.
