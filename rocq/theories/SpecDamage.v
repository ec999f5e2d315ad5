(** Specification vocabulary for damage: which bytes of a file belong to what, and which
    bytes two disks have in common. *)
From Verif Require Import Base Key Obj TreeObj File Column ColRead Spec SpecTree.

(** The two disks have the same [n] bytes at [p]. *)
Definition untouched (d d' : bytes) (p n : Z) : Prop :=
  forall i, p <= i < p + n -> nth_error d (Z.to_nat i) = nth_error d' (Z.to_nat i).

(** The disks differ at most in the [n] bytes at [p]. *)
Definition damaged_at (d d' : bytes) (p n : Z) : Prop :=
  zlen d' = zlen d /\ forall i, 0 <= i -> ~ (p <= i < p + n) -> nth_error d (Z.to_nat i) = nth_error d' (Z.to_nat i).

(** Where the baskets of a branch are, position and length; a branch with
    sub-branches is read from the baskets of those. *)
Definition own_baskets (b : branch) : list (Z * Z) := combine (b_seek (br_core b)) (b_bytes (br_core b)).
Definition read_baskets (b : branch) : list (Z * Z) :=
  match br_subs b with [] => own_baskets b | subs => flat_map own_baskets subs end.

(** The [n] bytes at [s] begin with a basket header that gives this place and this
    length, or with none. *)
Definition says_its_place (d : bytes) (s n : Z) : Prop :=
  0 <= s < 2 ^ 62 /\ 0 <= n < 2 ^ 31 /\
  forall bk, rrun 0 basket_unmarshal (zsub d s n) = Ok bk ->
    k_seek (bk_key bk) = s /\ k_nbytes (bk_key bk) = n /\ 0 <= k_keylen (bk_key bk) <= n.

(** The place of the record of a table and of its baskets. *)
Definition table_parts (k : key) (r : tree branch) : list (Z * Z) :=
  (k_seek k, k_nbytes k) :: flat_map own_baskets (t_branches r).

(** The places that the header and the directory give: the start of the file up to the
    first record, the list of keys, the class descriptions, the free segments. *)
Definition frame_parts (path : bytes) (fo : file) : list (Z * Z) :=
  [(0, first_record path); (d_seekkeys (f_dir fo), d_nbkeys (f_dir fo));
   (fh_seekinfo (f_hdr fo), fh_nbinfo (f_hdr fo)); (fh_seekfree (f_hdr fo), fh_nbfree (f_hdr fo))].

(** How many of these places contain byte [x]. *)
Definition owners (x : Z) (l : list (Z * Z)) : nat :=
  length (filter (fun p => (fst p <=? x) && (x <? fst p + snd p)) l).
