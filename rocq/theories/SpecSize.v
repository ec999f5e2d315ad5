(** What a table needs on disk: its entries, with what belongs to every basket. *)
From Verif Require Import Base Spec SpecTree SpecRoom SpecBasket.

(** The bytes of all baskets of a table. *)
Definition data_bytes (t : table) : Z :=
  total (fun c => total (basket_bytes (tb_name t) c) (in_baskets c)) (columns (tb_setup t)).
(** The bytes of the entries alone. *)
Definition entry_bytes (t : table) : Z := total column_bytes (columns (tb_setup t)).

(** The key of a table; it is written in front of its record and in the list of keys. *)
Definition tkey_bytes (t : table) : Z := 33 + string_size (tb_name t).
(** What a file without tables has besides the class descriptions: its beginning, an empty
    list of keys and the free list. *)
Definition empty_bytes (path : bytes) : Z := first_record path + (42 + string_size path) + (43 + string_size path).
