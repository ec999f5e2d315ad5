(** How the entries of a column are cut into baskets. *)
From Verif Require Import Base Values Names RObj Spec SpecTree SpecRoom.

(** How many entries come before each basket, and how many there are in total. *)
Fixpoint entries_before (n : Z) (l : list (list val)) : list Z :=
  n :: match l with [] => [] | p :: r => entries_before (n + zlen p) r end.

(** The bytes of a basket: a header with the names, the entries and, unless all entries
    have one size, the position of each entry with a number before and after. *)
Definition basket_bytes (tree_name : bytes) (c : column) (p : list val) : Z :=
  53 + string_size (c_name c) + string_size tree_name + total (value_bytes (c_type c)) p +
  match c_type c with TString | TVec _ => 4 * zlen p + 8 | _ => 0 end.

(** What the record of a column says: how many entries it has, that it starts with the
    first one, how many baskets it has and how many bytes these take in the file, twice
    because nothing is compressed. *)
Definition right_counts (tree_name : bytes) (c : column) (n : bcore) : Prop :=
  let size := total (basket_bytes tree_name c) (in_baskets c) in
  b_entries n = zlen (c_values c) /\ b_entrynum n = zlen (c_values c) /\ b_first n = 0 /\
  b_wb n = zlen (in_baskets c) /\ b_tot n = size /\ b_zip n = size /\
  total (fun z => z) (b_bytes n) = size.

(** What the leaf of a column says.  The letter of a scalar type and whether it is
    unsigned are ROOT's (TLeaf): B, S, I, L for the integers of 1, 2, 4 and 8 bytes, F and
    D for the floats and O for a boolean. *)
Definition letter_of (p : prim) : lkind :=
  match p with
  | I8 | U8 => LKB | I16 | U16 => LKS | I32 | U32 => LKI | I64 | U64 => LKL | F32 => LKF | F64 => LKD | PBool => LKO
  end.
Definition no_sign (p : prim) : bool := match p with U8 | U16 | U32 | U64 => true | _ => false end.
Definition longest_entry (c : column) : Z := fold_right Z.max 0 (map (value_bytes (c_type c)) (c_values c)).
(** A scalar column holds one element for each entry, an array column as many as the
    arrays are long; the smallest and largest element are not recorded.  The leaf of a
    column of strings says how many bytes its longest string takes. *)
Definition right_leaf (c : column) (l : leaf) : Prop :=
  n_name (tl_named (lf_t l)) = c_name c /\
  match c_type c with
  | TPrim p => lf_kind l = letter_of p /\ tl_unsigned (lf_t l) = no_sign p /\ tl_len (lf_t l) = 1 /\
      tl_etype (lf_t l) = Z.of_nat (scalar_bytes p) /\ n_title (tl_named (lf_t l)) = c_name c /\ lf_a l = 0 /\ lf_b l = 0
  | TArr n (TPrim p) => lf_kind l = letter_of p /\ tl_unsigned (lf_t l) = no_sign p /\ tl_len (lf_t l) = Z.of_nat n /\
      (Z.of_nat n * Z.of_nat (scalar_bytes p) < 2147483648 -> tl_etype (lf_t l) = Z.of_nat (scalar_bytes p)) /\
      n_title (tl_named (lf_t l)) = c_name c ++ bs "[" ++ dec (Z.of_nat n) ++ bs "]" /\ lf_a l = 0 /\ lf_b l = 0
  | TString => lf_kind l = LKC /\ tl_len (lf_t l) = Z.max 1 (longest_entry c) /\ lf_a l = 0 /\ lf_b l = longest_entry c
  | TVec _ => lf_kind l = LKElement /\ tl_len (lf_t l) = 1
  | _ => False
  end.
