(** Branch names (rtree/tree/branch_name.rs), the derive macros
    (oxyroot_derive/src/lib.rs) and the traits they implement
    (rtree/tree/traits.rs). *)
From Verif Require Export SliceRead TreeSession.

(** ** [BranchName]: branch_name.rs 1-71 *)

(** 1-6 *)
Inductive bname := BName (parent : option bname) (name prefix : option bytes).
(** 36-42 [new] *)
Definition bn_new : bname := BName None None None.
(** 15-18 [with_prefix], 20-23 [with_name] *)
Definition with_prefix (b : bname) (p : bytes) : bname := let '(BName pa n _) := b in BName pa n (Some p).
Definition with_name (b : bname) (n : bytes) : bname := let '(BName pa _ p) := b in BName pa (Some n) p.
(** 25-30 [make_absolute] *)
Definition make_absolute (b : bname) (n : bytes) : bname := BName None (Some n) None.
(** 44-53 [make_child] *)
Definition make_child (b : bname) (n : bytes) : bname :=
  let '(BName _ name _) := b in
  BName (match name with None => None | Some _ => Some b end) (Some n) None.
(** 55-71 [final_name] *)
Definition opt_bytes (o : option bytes) : bytes := match o with Some s => s | None => [] end.
Fixpoint final_name (b : bname) : bytes :=
  let '(BName pa n p) := b in
  (match pa with Some q => final_name q ++ [46] | None => [] end) ++ opt_bytes p ++ opt_bytes n.

(** ** [ReadFromTree] *)

(** Options of a field, lib.rs 205-243: its name, [rename], [absolute_name] and
    [branch_prefix]. *)
Record fopts := mkFO { fo_ident : bytes; fo_rename : option bytes; fo_absolute : option bytes; fo_prefix : option bytes }.
(** What can be read: a type with an [Unmarshaler]; a structure, with the
    [branch_prefix] of the structure (lib.rs 222-226); a slice of structures of plain
    types (a field with the option [slicable], whose structure is [slicable] too,
    lib.rs 237-241). *)
Inductive rty :=
| RPlain (t : ty)
| RStruct (global : option bytes) (fs : list (fopts * rty))
| RSliced (global : option bytes) (fs : list (fopts * ty)).

(** lib.rs 450-488 (and 540-578): the name of the branch of a field. *)
Definition field_bname (parent : bname) (global : option bytes) (f : fopts) : bname :=
  let b := make_child parent (match fo_rename f with Some n => n | None => fo_ident f end) in
  let b := match global with Some p => with_prefix b p | None => b end in
  let b := match fo_absolute f with Some a => make_absolute b a | None => b end in
  match fo_prefix f with Some p => with_prefix b p | None => b end.

(** What is read: a value, a structure (its fields in order) or a slice. *)
Inductive sval := SVal (v : val) | SStruct (l : list sval) | SSlice (l : list sval).

(** An iterator over what is read; a column is the list of the values it has still to
    give. *)
Inductive rit := ItVals (l : list val) | ItStruct (fs : list rit) | ItSliced (cols : list (list (list val))).

Section Reader.
Context {L : decoders}.
Variables (d : bytes) (sis : list sinfo) (t : tree branch).

(** traits.rs 84-101: a plain type; the values are read at once, in the code they are
    read on demand. *)
Definition plain_iter {A} (read : branch -> res (list A)) (b : bname) : res (list A) :=
  match tree_branch t (final_name b) with None => Err EBranchNotFound | Some br => read br end.

(** lib.rs 446-537 (structures), 539-616 (slices): the fields in order, the first error
    is returned. *)
Fixpoint from_branch_tree (b : bname) (w : rty) : res rit :=
  match w with
  | RPlain ty => l <-? plain_iter (as_iter d sis ty) b ;; Ok (ItVals l)
  | RStruct g fs =>
      its <-? (fix go (l : list (fopts * rty)) : res (list rit) :=
                 match l with
                 | [] => Ok []
                 | (f, w') :: r => i <-? from_branch_tree (field_bname b g f) w' ;; is <-? go r ;; Ok (i :: is)
                 end) fs ;;
      Ok (ItStruct its)
  | RSliced g fs =>
      cols <-? res_map (fun fw => plain_iter (as_iter_slice d sis (snd fw)) (field_bname b g (fst fw))) fs ;;
      Ok (ItSliced cols)
  end.

(** lib.rs 660-719: one slice of structures; the number of elements is that of the last
    field, indexing the others may panic. *)
Definition slice_of_structs (cols : list (list val)) : res sval :=
  match rev cols with
  | [] => Panic
  | last :: _ =>
      l <-? res_map (fun i => vs <-? res_map (fun c => match nth_error c i with Some v => Ok (SVal v) | None => Panic end) cols ;;
                              Ok (SStruct vs)) (seq 0 (length last)) ;;
      Ok (SSlice l)
  end.

(** lib.rs 618-658 [next]: the fields in order; a field that has ended ends the
    structure.  [None] is the end. *)
Fixpoint it_next (i : rit) : res (option (sval * rit)) :=
  match i with
  | ItVals [] => Ok None
  | ItVals (v :: r) => Ok (Some (SVal v, ItVals r))
  | ItStruct fs =>
      r <-? (fix go (l : list rit) : res (option (list sval * list rit)) :=
               match l with
               | [] => Ok (Some ([], []))
               | i :: r =>
                   x <-? it_next i ;;
                   match x with
                   | None => Ok None
                   | Some (v, i') =>
                       y <-? go r ;;
                       match y with None => Ok None | Some (vs, is) => Ok (Some (v :: vs, i' :: is)) end
                   end
               end) fs ;;
      match r with None => Ok None | Some (vs, is) => Ok (Some (SStruct vs, ItStruct is)) end
  | ItSliced cols =>
      if existsb (fun c => match c with [] => true | _ => false end) cols then Ok None
      else s <-? slice_of_structs (map (fun c => hd [] c) cols) ;;
           Ok (Some (s, ItSliced (map (fun c => tl c) cols)))
  end.

Fixpoint it_collect (fuel : nat) (i : rit) : res (list sval) :=
  match fuel with
  | O => OutOfFuel
  | S n => x <-? it_next i ;;
           match x with None => Ok [] | Some (v, i') => l <-? it_collect n i' ;; Ok (v :: l) end
  end.

(** More calls than any column has values. *)
Fixpoint it_size (i : rit) : nat :=
  match i with
  | ItVals l => length l
  | ItStruct fs => list_sum (map it_size fs)
  | ItSliced cols => list_sum (map (@length _) cols)
  end.

(** traits.rs 43-55 [from_tree], collected; a structure without any column never ends. *)
Definition from_tree (w : rty) : res (list sval) :=
  i <-? from_branch_tree bn_new w ;; it_collect (S (it_size i)) i.
End Reader.

(** ** [WriteToTree] *)

(** What can be written: a type with a [Marshaler] or a structure with named fields. *)
Inductive wty := WLeaf (t : ty) | WStruct (fs : list (bytes * wty)).

(** The channels of lib.rs 765-806: [cell] is what the receiver of this node will give
    next; a structure has a callback that takes from its cell and fills those of its
    fields. *)
Inductive node := NLeaf (cell : option sval) | NStruct (cell : option sval) (fs : list node).
Definition send (c : option sval) (n : node) : node :=
  match n with NLeaf _ => NLeaf c | NStruct _ fs => NStruct c fs end.
(** lib.rs 765-801 [make_channel], for the structure and, recursively, for its fields. *)
Fixpoint new_node (w : wty) : node :=
  match w with
  | WLeaf _ => NLeaf None
  | WStruct fs => NStruct None (map (fun f => new_node (snd f)) fs)
  end.

(** lib.rs 810-827: what the callback of a structure sends.  (A value that is not a
    structure of this type does not exist in the code.) *)
Fixpoint send_all (l : list sval) (fs : list node) : list node :=
  match l, fs with
  | v :: r, n :: ns => send (Some v) n :: send_all r ns
  | _, ns => map (send None) ns
  end.
Definition distribute (c : option sval) (fs : list node) : list node :=
  match c with Some (SStruct l) => send_all l fs | _ => map (send None) fs end.
(** The callbacks of a node at [StateCallBack::Before].  Those of its fields are
    registered first (lib.rs 830-831) and run first (rtree/tree/writer.rs 101-103). *)
Fixpoint run_callbacks (n : node) : node :=
  match n with
  | NLeaf c => NLeaf c
  | NStruct c fs => NStruct None (distribute c (map run_callbacks fs))
  end.
(** Then every branch takes from its receiver (lib.rs 803-811). *)
Fixpoint pulls (n : node) : list (option sval) :=
  match n with NLeaf c => [c] | NStruct _ fs => flat_map pulls fs end.
Fixpoint drained (n : node) : node :=
  match n with NLeaf _ => NLeaf None | NStruct c fs => NStruct c (map drained fs) end.

(** [k] rows: the callback of the outermost structure takes from the user's iterator. *)
Fixpoint rounds (k : nat) (items : list sval) (n : node) : list (list (option sval)) :=
  match k with
  | O => []
  | S k' => let n1 := run_callbacks (send (hd_error items) n) in
            pulls n1 :: rounds k' (tl items) (drained n1)
  end.

(** The calls made on the tree: lib.rs 943-974 (the fields, under their own names, the
    [branch_name] passed to the structure is not used), 831 (the callback), traits.rs
    134-145 (a plain type).  [None] is a callback. *)
Fixpoint tree_calls (name : bytes) (w : wty) : list (option (bytes * ty)) :=
  match w with
  | WLeaf t => [Some (name, t)]
  | WStruct fs => flat_map (fun f => tree_calls (fst f) (snd f)) fs ++ [None]
  end.
(** Nesting of structures, after which nothing is left in the channels. *)
Fixpoint nesting (w : wty) : nat :=
  match w with WLeaf _ => 0 | WStruct fs => S (list_max (map (fun f => nesting (snd f)) fs)) end.

Definition unval (o : option sval) : option val := match o with Some (SVal v) => Some v | _ => None end.
(** The providers of the branches: number [j] gives, row after row, what it took. *)
Definition provider (rs : list (list (option sval))) (j : nat) : list (option val) :=
  map (fun r => unval (nth j r None)) rs.
Fixpoint with_providers (rs : list (list (option sval))) (j : nat) (l : list (option (bytes * ty))) : list bop :=
  match l with
  | [] => []
  | Some (name, t) :: r => BBranch name t (provider rs j) :: with_providers rs (S j) r
  | None :: r => BCallback :: with_providers rs j r
  end.

(** traits.rs 60-69 [to_tree] of a structure, then [write] (the rows after the last one
    listed here give nothing). *)
Definition to_tree (name : bytes) (fs : list (bytes * wty)) (items : list sval) : tprog :=
  let w := WStruct fs in
  mkTP name (with_providers (rounds (length items + nesting w) items (new_node w)) 0 (tree_calls [] w)).
