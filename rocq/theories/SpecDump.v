(** What the command-line tools must print for a file. *)
From Verif Require Import Base Values Coll SpecTree.

(** The tool has no case for vectors of 64-bit integers. *)
Definition has_case (t : ty) : bool :=
  match t with TVec (TPrim I64) | TVec (TPrim U64) => false | _ => true end.

(** One line for each row and each column, in this order: the row, the column and its value
    there, if it has that many. *)
Definition table_lines (t : table) : list (nat * bytes * option cval) :=
  flat_map (fun i => map (fun c => (i, c_name c, option_map embv (nth_error (c_values c) i)))
      (filter (fun c => has_case (c_type c)) (columns (tb_setup t))))
    (seq 0 (longest (columns (tb_setup t)))).

(** The table that the name [n] stands for when [ts] were written in this order. *)
Definition newest (ts : list table) (n : bytes) (u : table) : Prop :=
  exists earlier later, ts = earlier ++ u :: later /\ tb_name u = n /\ (forall t, In t later -> tb_name t <> n).

Definition all_readable (ts : list table) : Prop := Forall (fun t => Forall column_readable (columns (tb_setup t))) ts.
Definition no_brackets (ts : list table) : Prop := Forall (fun t => Forall (fun c => no_bracket (c_name c)) (columns (tb_setup t))) ts.
