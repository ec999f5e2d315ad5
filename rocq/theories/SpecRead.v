(** Specification vocabulary for branches with sub-branches and for slices. *)
From Verif Require Import Base ColRead.

(** [n] consecutive entries of [size] bytes each. *)
Fixpoint cut (n size : nat) (b : bytes) : list bytes :=
  match n with O => [] | S k => firstn size b :: cut k size (skipn size b) end.

(** A basket of fixed-size entries, at least one, all of them present. *)
Definition full_chunk (c : chunk) : Prop :=
  match c with
  | Regular n size buf => 0 < n < 2 ^ 31 /\ 0 <= size < 2 ^ 31 /\ n * size <= zlen buf
  | Irregular _ _ _ => False
  end.
Definition chunk_entries (c : chunk) : list bytes :=
  match c with Regular n size buf => cut (Z.to_nat n) (Z.to_nat size) buf | Irregular _ _ _ => [] end.
(** All the entries of a branch, basket after basket. *)
Definition entries (chs : list chunk) : list bytes := flat_map chunk_entries chs.

(** The rows of a list of columns, as long as the shortest column. *)
Definition shortest {A} (cols : list (list A)) : nat :=
  match cols with [] => 0%nat | c :: r => fold_right Nat.min (length c) (map (@length A) r) end.
Definition row (cols : list (list bytes)) (i : nat) : bytes := concat (map (fun c => nth i c []) cols).
Definition rows (cols : list (list bytes)) : list bytes := map (row cols) (seq 0 (shortest cols)).

(** The header in front of an entry: [h] bytes; the reader recognises one of more than
    one byte by its first byte. *)
Definition entry_header (h : Z) (hd : bytes) : Prop :=
  zlen hd = h /\ (h <= 1 \/ exists r, hd = 64 :: r).
(** Reading one field after the other. *)
Fixpoint read_fields (ts : list ty) : R (list val) :=
  match ts with
  | [] => ret []
  | t :: r => v <- unmarshal t ;; l <- read_fields r ;; ret (v :: l)
  end.

(** The rows of typed columns. *)
Definition value_rows (cols : list (list val)) : list (list val) :=
  map (fun i => map (fun c => nth i c (VInt 0)) cols) (seq 0 (shortest cols)).
(** The sub-branch [s], read as a plain branch, has at least one basket, and each basket
    holds at least one entry of [k] bytes, all present. *)
Definition fixed_baskets (d : bytes) (sis : list sinfo) (k : Z) (s : branch) : Prop :=
  br_subs s = [] /\ 0 <= k < 2 ^ 31 /\
  exists chs, baskets_buffer d sis (as_base s) = Ok chs /\ chs <> [] /\
    Forall (fun c => exists n buf, c = Regular n k buf /\ 0 < n < 2 ^ 31 /\ n * k <= zlen buf) chs.
(** Read on its own it gives [vs]. *)
Definition alone (d : bytes) (sis : list sinfo) (t : ty) (s : branch) (vs : list val) : Prop :=
  get_basket d sis (unmarshal t) (as_base s) = Ok vs.
