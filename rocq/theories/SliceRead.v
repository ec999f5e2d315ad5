(** [Slice<T>]: rusty/containers.rs 33-90, and reading a branch as slices. *)
From Verif Require Export ColRead.

(** containers.rs 66-73: the loop; [len] is a [usize], so subtracting more than is left
    is an overflow (a panic; without overflow checks the loop would go on).  [func] is
    [read_object_into::<T>] and is unwrapped.  A [T] that takes no bytes would loop for
    ever: the fuel runs out. *)
Fixpoint slice_loop {A} (func : R A) (fuel : nat) (len : Z) (inner : list A) : R (list A) := fun r =>
  if len <=? 0 then Ok (inner, r) else
  match fuel with
  | O => OutOfFuel
  | S n =>
      match func r with
      | Err _ => Panic
      | Ok (a, r') =>
          let len' := len - (r_pos r' - r_pos r) in
          if len' <? 0 then Panic else slice_loop func n len' (inner ++ [a]) r'
      | Panic => Panic | Unmodelled => Unmodelled | OutOfFuel => OutOfFuel
      end
  end.

(** containers.rs 58-76 [Slice::unmarshal] *)
Definition unmarshal_slice {A} (func : R A) : R (list A) :=
  do_skip_header ;;; (fun r => slice_loop func (Z.to_nat (r_len r)) (r_len r) [] r).

(** containers.rs 78-90 [Slice::class_name] *)
Definition slice_classes (t : ty) : list bytes := map (fun c => c ++ bs "[]") (r_classes t).

(** rtree/branch/mod.rs 243-264 [as_iter::<Slice<T>>], collected *)
Definition as_iter_slice {L : decoders} (d : bytes) (sis : list sinfo) (t : ty) (b : branch) : res (list (list val)) :=
  name <-? item_type_name sis b ;;
  if existsb (beqb name) (slice_classes t) then get_basket d sis (unmarshal_slice (unmarshal t)) b
  else Err ETypeMismatch.
