(** The type a column shows to a reader, for C57.  The reader looks for the dimension of an
    array in the title of the column, which begins with the name of the column. *)
From Verif Require Import Base Values Spec SpecTree.

(** The title: the name, followed by the dimension in brackets for an array. *)
Inductive titled : column -> bytes -> Prop :=
| titled_arr name n t vs d : decimal n d -> titled (Column name (TArr n t) vs) (name ++ bs "[" ++ d ++ bs "]")
| titled_other name t vs : (forall n u, t <> TArr n u) -> titled (Column name t vs) name.

(** The first bracket of the title opens a pair of brackets around at least one byte. *)
Definition shows_dim (title : bytes) : Prop :=
  exists a b c, title = a ++ bs "[" ++ b ++ bs "]" ++ c /\ no_bracket a /\ no_bracket b /\ b <> [].

(** The first number between brackets, in digits, without leading zeros. *)
Definition number (d : bytes) : Prop := d <> [] /\ Forall (fun c => 48 <= c <= 57) d /\ hd 0 d <> 48.
Definition number_in (title a d c : bytes) : Prop := title = a ++ bs "[" ++ d ++ bs "]" ++ c /\ number d.
Definition first_number (title d : bytes) : Prop :=
  exists a c, number_in title a d c /\ forall a' d' c', number_in title a' d' c' -> (length a <= length a')%nat.
Definition value (d : bytes) : Z := fold_left (fun a c => 10 * a + (c - 48)) d 0.

(** A number that does not fit in an [i32]. *)
Definition too_large (title : bytes) : Prop := shows_dim title /\ exists d, first_number title d /\ 2 ^ 31 <= value d.

Definition element (t : ty) : ty := match t with TArr _ u => u | _ => t end.

(** [shown c u]: column [c] looks like a column of type [u]. *)
Inductive shown (c : column) : ty -> Prop :=
| shown_vec t title : c_type c = TVec t -> titled c title -> ~ too_large title -> shown c (TVec t)
| shown_one title : (forall t, c_type c <> TVec t) -> titled c title -> ~ shows_dim title -> shown c (element (c_type c))
| shown_arr title d : (forall t, c_type c <> TVec t) -> titled c title -> shows_dim title -> first_number title d -> value d < 2 ^ 31 ->
    shown c (TArr (Z.to_nat (value d)) (element (c_type c))).
