(** What it means that reading ends.  The model's reading functions make a number of
    steps bounded by the length of what they read, and give [OutOfFuel] when that is not
    enough: the code would still be running. *)
From Verif Require Import Base Bytes Values RObj Decomp ColRead Derive.

Definition finishes {A} (r : res A) : Prop := r <> OutOfFuel.

(** The decoders of compressed bytes, which are not part of the library, end. *)
Definition decoders_finish (L : decoders) : Prop :=
  (forall s, finishes (zlib_out s)) /\ (forall s, finishes (xz_out s)) /\ (forall s n, finishes (lz4_out s n)).

(** A value of the type takes at least one byte: there is no array of length 0 around
    everything. *)
Fixpoint takes_bytes (t : ty) : Prop :=
  match t with
  | TArr n t' => n <> 0%nat /\ takes_bytes t'
  | _ => True
  end.
(** The same for all the types of a structure. *)
Inductive all_take_bytes : rty -> Prop :=
| tb_plain t : takes_bytes t -> all_take_bytes (RPlain t)
| tb_struct g fs : Forall (fun f => all_take_bytes (snd f)) fs -> all_take_bytes (RStruct g fs)
| tb_sliced g fs : Forall (fun f => takes_bytes (snd f)) fs -> all_take_bytes (RSliced g fs).
(** A structure with at least one column, at whatever depth. *)
Inductive has_a_column : rty -> Prop :=
| hc_plain t : has_a_column (RPlain t)
| hc_struct g fs f w : In (f, w) fs -> has_a_column w -> has_a_column (RStruct g fs)
| hc_sliced g fs : has_a_column (RSliced g fs).

(** A basket announces entries or gives them a size. *)
Definition announces (c : chunk) : Prop :=
  match c with Regular n size _ => 0 < n < 2 ^ 63 \/ 0 < size < 2 ^ 63 | Irregular _ _ _ => True end.
(** So do all the baskets of the sub-branches. *)
Definition subs_announce {L : decoders} (d : bytes) (sis : list sinfo) (b : branch) : Prop :=
  forall s chs, In s (br_subs b) -> baskets_buffer d sis (as_base s) = Ok chs -> Forall announces chs.
