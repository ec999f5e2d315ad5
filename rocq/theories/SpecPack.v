(** Compressed records: how ROOT stores them, and files that differ only in how their
    baskets are stored. *)
From Verif Require Import Base Bytes RBuf Values Key Obj Decomp File ColRead Spec.

Section Decoders.
Context {L : decoders}.

(** A block is two letters for the algorithm, a byte for its version, the lengths of
    the compressed and of the original bytes in three bytes each, lowest first, and the
    compressed bytes. *)
Definition le3 (n : Z) : bytes := [n mod 256; (n / 256) mod 256; (n / 65536) mod 256].
Definition block (tag : bytes) (version n : Z) (body : bytes) : bytes :=
  tag ++ [version] ++ le3 (zlen body) ++ le3 n ++ body.

(** [packed content stored]: [stored] is a block from which a decoder gives [content]
    back.  LZ4 blocks start with a checksum of eight bytes. *)
Inductive packed (content : bytes) : bytes -> Prop :=
| packed_zlib v body : zlib_out body = Ok content -> packed content (block (bs "ZL") v (zlen content) body)
| packed_xz v body : xz_out body = Ok content -> packed content (block (bs "XZ") v (zlen content) body)
| packed_lz4 v sum body : length sum = 8%nat -> lz4_out body (zlen content) = Ok (Some content) ->
    packed content (block (bs "L4") v (zlen content) (sum ++ body)).

(** The record that the key [k] speaks of is at its place in the file [d]: after a
    header of the announced length, [stored] is stored for [n] bytes. *)
Definition record_of (d : bytes) (k : key) (n : Z) (stored : bytes) : Prop :=
  0 <= k_seek k /\ 0 <= k_keylen k /\
  k_objlen k = n /\ k_nbytes k = k_keylen k + zlen stored /\ k_nbytes k < 2 ^ 31 /\
  exists pre post, d = pre ++ stored ++ post /\ zlen pre = k_seek k + k_keylen k /\ zlen d < 2 ^ 63.

(** The numbers of a basket between its key and its contents: its version, the size of
    the buffer it came from, the size of an entry, the number of entries, the end of the
    entries and the byte 0. *)
Definition basket_numbers (size nevsize n last : Z) : bytes := be 2 3 ++ be 4 size ++ be 4 nevsize ++ be 4 n ++ be 4 last ++ [0].
(** A basket is in the file [d]: the bytes [h] that decode to [k], the numbers, and what
    is stored for [len] bytes of contents. *)
Definition basket_at (d : bytes) (k : key) (size nevsize n last len : Z) (stored : bytes) : Prop :=
  exists h pre post, decodes key_unmarshal h k /\ k_keylen k = zlen h + 19 /\
    k_objlen k = len /\ k_nbytes k = k_keylen k + zlen stored /\ k_nbytes k < 2 ^ 31 /\
    d = pre ++ (h ++ basket_numbers size nevsize n last ++ stored) ++ post /\ zlen pre = k_seek k /\ zlen d < 2 ^ 63.

(** Two baskets with the same contents, of [n] bytes, in the files [d1] and [d2]: found
    at [p1] and [p2] (position and length), with the same numbers in their headers
    except for the number of bytes that are stored. *)
Definition alike_basket (d1 d2 : bytes) (p1 p2 : Z * Z) : Prop :=
  (0 < snd p1 <-> 0 < snd p2) /\
  (0 < snd p1 -> exists b1 b2 k1 k2 content,
    read_at d1 (fst p1) (snd p1) = Ok b1 /\ read_at d2 (fst p2) (snd p2) = Ok b2 /\
    rrun 0 basket_unmarshal b1 = Ok k1 /\ rrun 0 basket_unmarshal b2 = Ok k2 /\
    key_bytes d1 (bk_key k1) = Ok content /\ key_bytes d2 (bk_key k2) = Ok content /\
    k_keylen (bk_key k1) = k_keylen (bk_key k2) /\ k_objlen (bk_key k1) = k_objlen (bk_key k2) /\
    bk_nevbuf k1 = bk_nevbuf k2 /\ bk_last k1 = bk_last k2 /\ bk_nevsize k1 = bk_nevsize k2).

(** The branches differ in the places and lengths of their baskets only, and the
    baskets have the same contents. *)
Inductive alike (d1 d2 : bytes) : branch -> branch -> Prop :=
| alike_br top c1 c2 e subs1 subs2 ls bks :
    b_named c1 = b_named c2 -> b_entries c1 = b_entries c2 ->
    length (b_seek c1) = length (b_seek c2) -> length (b_bytes c1) = length (b_bytes c2) ->
    Forall2 (alike_basket d1 d2) (combine (b_seek c1) (b_bytes c1)) (combine (b_seek c2) (b_bytes c2)) ->
    Forall2 (alike d1 d2) subs1 subs2 ->
    alike d1 d2 (Br top c1 e subs1 ls bks) (Br top c2 e subs2 ls bks).
End Decoders.
