(** When two programs write the same file. *)
From Verif Require Import Base Values SpecTree.

(** What of a table can be in the file: its name and its columns. *)
Definition content (t : table) : bytes * list column := (tb_name t, columns (tb_setup t)).
