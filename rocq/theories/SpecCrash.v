(** What a crash leaves: the words of the statements about torn writes. *)
From Verif Require Import File SpecTree.

(** The disk opens and holds every table the program wrote. *)
Definition whole (d : bytes) (ts : list table) : Prop :=
  exists fo, open_file d = Ok fo /\ shows_tables fo ts.

Definition zeros (b : bytes) : Prop := Forall (fun x => x = 0) b.

(** [field p n b]: the [n] bytes at [p] of the record [b]. *)
Definition field (p n : nat) (b : bytes) : bytes := firstn n (skipn p b).

(** The record that saves the directory holds the position of the list of keys in four
    bytes at 26.  The position is torn when the write stops among them, with a part of it
    on disk and a part missing: nonzero bytes on both sides of the cut. *)
Definition position_torn (path : bytes) (all done : list (Z * bytes)) : Prop :=
  exists before b n, done = before ++ [(directory_at path, firstn n b)] /\ In (directory_at path, b) all /\
    ~ zeros (firstn (n - 26) (field 26 4 b)) /\ ~ zeros (skipn (n - 26) (field 26 4 b)).

(** The header holds the length of the name of the file in four bytes at 28.  The length is
    torn when the last write stops one byte before their end and a long path needs two of
    them. *)
Definition name_length_torn (path : bytes) (all done : list (Z * bytes)) : Prop :=
  110 <= zlen path /\ exists before h, all = before ++ [(0, h)] /\ done = before ++ [(0, firstn 31 h)].
