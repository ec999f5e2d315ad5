(** How much room a file needs, from what the user puts into it. *)
From Verif Require Import Base Values Spec SpecTree.

(** Bytes of one entry: scalars and arrays as they are, strings with their length in
    front, vectors with 6 bytes of header and 4 of length in front. *)
Definition value_bytes (t : ty) (v : val) : Z :=
  match t, v with
  | TPrim p, _ => Z.of_nat (scalar_bytes p)
  | TArr n (TPrim p), _ => Z.of_nat n * Z.of_nat (scalar_bytes p)
  | TString, VStr s => string_size s
  | TVec (TPrim p), VList l => 10 + Z.of_nat (scalar_bytes p) * zlen l
  | _, _ => 0
  end.
Fixpoint total {A} (g : A -> Z) (l : list A) : Z := match l with [] => 0 | a :: r => g a + total g r end.

Definition column_bytes (c : column) : Z := total (value_bytes (c_type c)) (c_values c).
(** A basket is written when it holds 16384 bytes. *)
Definition baskets (c : column) : Z := column_bytes c / 16384 + 1.
(** The entries, their positions in the basket, a header for each basket, and the
    description of the column in the tree. *)
Definition column_room (tree_name : bytes) (c : column) : Z :=
  column_bytes c + 4 * zlen (c_values c) + baskets c * (100 + zlen (c_name c) + zlen tree_name) + 6 * zlen (c_name c) + 1200.
Definition table_room (t : table) : Z :=
  total (column_room (tb_name t)) (columns (tb_setup t)) + 3 * zlen (tb_name t) + 800.
(** 85000 bytes are enough for everything that is there in any file, the class descriptions above all. *)
Definition room (path : bytes) (ts : list table) : Z := total table_room ts + 5 * zlen path + 85000.

(** Entries are collected until one more entry, as long as the last one, would bring the
    basket to 32768 bytes; then it is written and a new one begun.  What is left at the
    end, perhaps nothing, makes the last basket. *)
Fixpoint cut (size : val -> Z) (held vs : list val) : list (list val) :=
  match vs with
  | [] => [held]
  | v :: r => let held' := held ++ [v] in
              if 32768 <=? total size held' + size v then held' :: cut size [] r else cut size held' r
  end.
Definition in_baskets (c : column) : list (list val) := cut (value_bytes (c_type c)) [] (c_values c).

(** The positions of the entries of a basket are kept in a table of 1000 places, which is
    doubled when an entry takes the last but one.  An entry of one byte more than there
    are places makes this happen one entry later, with one place more to be doubled; and
    a longer one stops it: then the basket must not have more entries than places (see
    C39).  [sizes] are the sizes of the entries after the first [before], [late] is 0 or 1. *)
Fixpoint positions_fit (places late before : Z) (sizes : list Z) : Prop :=
  match sizes with
  | [] => True
  | n :: r =>
      let full := places + late <=? before + 1 in
      let places' := if full then 2 * (places + late) else places in
      let late' := if full then 0 else late in
      (n <= places' + 1 \/ before + zlen sizes <= places') /\
      positions_fit places' (if n =? places' + 1 then 1 else late') (before + 1) r
  end.
Definition all_positions_fit (c : column) : Prop :=
  match c_type c with
  | TString | TVec _ => Forall (fun p => positions_fit 1000 0 0 (map (value_bytes (c_type c)) p)) (in_baskets c)
  | _ => True
  end.
(** One of these is enough: no long entries, few entries, or no short entries. *)
Definition steady (c : column) : Prop :=
  match c_type c with
  | TString | TVec _ =>
      Forall (fun v => value_bytes (c_type c) v <= 1000) (c_values c) \/
      zlen (c_values c) <= 1000 \/
      Forall (fun v => 33 <= value_bytes (c_type c) v) (c_values c)
  | _ => True
  end.

(** A table that can be written: no slash in its name, and columns of at most 32767
    baskets whose positions fit. *)
Definition writable (t : table) : Prop :=
  ~ In 47 (tb_name t) /\
  Forall (fun c => all_positions_fit c /\ zlen (in_baskets c) <= 32767) (columns (tb_setup t)).
