(** Specification vocabulary for the derive macros: names, what reading a structure
    gives, what writing structures leaves in the columns.  Taken from the model: the
    shapes of structure types and values, and reading single columns. *)
From Verif Require Import Base Values RObj File Column ColRead SliceRead TreeWrite TreeSession Derive Spec SpecTree SpecRead.

(** ** Names *)

(** Names joined by dots. *)
Fixpoint dotted (l : list bytes) : bytes :=
  match l with
  | [] => []
  | [x] => x
  | x :: r => x ++ bs "." ++ dotted r
  end.
(** The path of a field in a structure that is found at [path] and whose fields have the
    prefix [global]: one more component, made of a prefix and a name; the prefix of the
    field itself comes before that of the structure, its new name before its own.  An
    absolute name starts afresh, and only a prefix of the field itself applies to it. *)
Definition or_else {A} (a : option A) (b : A) : A := match a with Some x => x | None => b end.
Definition field_path (path : list bytes) (global : option bytes) (f : fopts) : list bytes :=
  match fo_absolute f with
  | Some n => [or_else (fo_prefix f) [] ++ n]
  | None => path ++ [or_else (fo_prefix f) (or_else global []) ++ or_else (fo_rename f) (fo_ident f)]
  end.

(** ** Reading *)

(** The rows of a list of columns, as long as the shortest one. *)
Definition rows_of {A} (x : A) (cols : list (list A)) : list (list A) :=
  map (fun i => map (fun c => nth i c x) cols) (seq 0 (shortest cols)).

Section Reading.
Variables (d : bytes) (sis : list sinfo) (t : tree branch).
(** The column of the tree with that name, if there is one, read by [read]. *)
Definition column_of {A} (read : branch -> res (list A)) (name : bytes) (l : list A) : Prop :=
  exists b, tree_branch t name = Some b /\ read b = Ok l.

(** What reading a [w] from [path] gives: the values of the column; for a structure the
    rows of its fields; for a slice, in each row, the rows of the slices of its fields,
    which must have the same number of elements. *)
Inductive delivers : list bytes -> rty -> list sval -> Prop :=
| del_plain path ty l : column_of (as_iter d sis ty) (dotted path) l -> delivers path (RPlain ty) (map SVal l)
| del_struct path g fs cols : fs <> [] -> fields_deliver path g fs cols ->
    delivers path (RStruct g fs) (map SStruct (rows_of (SVal (VInt 0)) cols))
| del_sliced path g fs cols : fs <> [] ->
    Forall2 (fun fw l => column_of (as_iter_slice d sis (snd fw)) (dotted (field_path path g (fst fw))) l) fs cols ->
    Forall (fun r => forall c c', In c r -> In c' r -> length c = length c') (rows_of [] cols) ->
    delivers path (RSliced g fs)
      (map (fun r => SSlice (map (fun vs => SStruct (map SVal vs)) (rows_of (VInt 0) r))) (rows_of [] cols))
with fields_deliver : list bytes -> option bytes -> list (fopts * rty) -> list (list sval) -> Prop :=
| fdel_nil path g : fields_deliver path g [] []
| fdel_cons path g f w r l cols : delivers (field_path path g f) w l -> fields_deliver path g r cols ->
    fields_deliver path g ((f, w) :: r) (l :: cols).

(** Reading a [w] from [path] needs the column [name]. *)
Inductive needs : list bytes -> rty -> bytes -> Prop :=
| need_plain path ty : needs path (RPlain ty) (dotted path)
| need_struct path g fs f w n : In (f, w) fs -> needs (field_path path g f) w n -> needs path (RStruct g fs) n
| need_sliced path g fs f ty : In (f, ty) fs -> needs path (RSliced g fs) (dotted (field_path path g f)).
End Reading.

(** ** Writing *)

(** A value of a structure type. *)
Inductive is_a : wty -> sval -> Prop :=
| is_plain t v : has_type t v -> is_a (WLeaf t) (SVal v)
| is_struct fs l : are fs l -> is_a (WStruct fs) (SStruct l)
with are : list (bytes * wty) -> list sval -> Prop :=
| are_nil : are [] []
| are_cons n w r v l : is_a w v -> are r l -> are ((n, w) :: r) (v :: l).

(** The plain fields of a structure, also those of nested ones, in order; each with its
    name, its type and the number of structures around the one it is a field of. *)
Fixpoint plain_of (name : bytes) (depth : nat) (w : wty) : list (bytes * ty * nat) :=
  match w with
  | WLeaf t => [(name, t, depth)]
  | WStruct fs => flat_map (fun f => plain_of (fst f) (S depth) (snd f)) fs
  end.
Definition plain_fields (fs : list (bytes * wty)) : list (bytes * ty * nat) :=
  flat_map (fun f => plain_of (fst f) 0 (snd f)) fs.
(** Their values in one structure. *)
Fixpoint plain_values (v : sval) : list val :=
  match v with SVal x => [x] | SStruct l => flat_map plain_values l | SSlice l => flat_map plain_values l end.
(** The values of the [j]-th plain field in a sequence of structures. *)
Definition field_values (j : nat) (items : list sval) : list val :=
  map (fun v => nth j (plain_values v) (VInt 0)) items.

(** The program that creates the file [path], writes [items] to one tree by the derived
    [to_tree], and closes the file, has succeeded. *)
Definition derived_file (path name : bytes) (fs : list (bytes * wty)) (items : list sval) (f : file) : Prop :=
  user_path path /\ text name /\ zlen name <= 32000 /\ ~ In 59 name /\
  Forall (is_a (WStruct fs)) items /\
  Forall (fun l => let '(n, t, _) := l in column_type t /\ text n /\ zlen n + zlen name <= 32000) (plain_fields fs) /\
  exists es, session StreamerDb.real_db path [to_tree name fs items] = (f, Ok es) /\ zlen (f_disk f) <= 2000000000.

(** Some field of the structure itself is plain. *)
Definition some_plain (fs : list (bytes * wty)) : Prop := exists n t, In (n, WLeaf t) fs.

(** ** Both directions *)

(** The type read looks for every plain field under the name it is written under. *)
Inductive mirrors : list bytes -> rty -> bytes -> wty -> Prop :=
| mir_plain path t : mirrors path (RPlain t) (dotted path) (WLeaf t)
| mir_struct path g rs n fs : rs <> [] -> fields_mirror path g rs fs -> mirrors path (RStruct g rs) n (WStruct fs)
with fields_mirror : list bytes -> option bytes -> list (fopts * rty) -> list (bytes * wty) -> Prop :=
| fmir_nil path g : fields_mirror path g [] []
| fmir_cons path g f w r n w' r' : mirrors (field_path path g f) w n w' -> fields_mirror path g r r' ->
    fields_mirror path g ((f, w) :: r) ((n, w') :: r').
Scheme mirrors_ind2 := Minimality for mirrors Sort Prop with fields_mirror_ind2 := Minimality for fields_mirror Sort Prop.

(** ** Providers that pause *)

(** A column given by what its provider answers when it is asked: [None] for nothing. *)
Record provided := Provided { pr_name : bytes; pr_type : ty; pr_answers : list (option val) }.
(** The first question that is answered by nothing; a list that is used up answers so. *)
Fixpoint pause (l : list (option val)) : nat := match l with Some _ :: r => S (pause r) | _ => 0%nat end.
Definition longest_start (ps : list provided) : nat := list_max (map (fun p => pause (pr_answers p)) ps).
Fixpoint answered (l : list (option val)) : list val :=
  match l with [] => [] | Some v :: r => v :: answered r | None :: r => answered r end.
(** [f] is the file at [path] after a tree [name] of these columns was written and the
    file was closed. *)
Definition provided_file (path name : bytes) (ps : list provided) (f : file) : Prop :=
  user_path path /\ text name /\ zlen name <= 32000 /\ ~ In 59 name /\
  Forall (fun p => column_type (pr_type p) /\ text (pr_name p) /\ zlen (pr_name p) + zlen name <= 32000 /\
                   Forall (has_type (pr_type p)) (answered (pr_answers p))) ps /\
  exists es, session StreamerDb.real_db path [mkTP name (map (fun p => BBranch (pr_name p) (pr_type p) (pr_answers p)) ps)] = (f, Ok es) /\
    zlen (f_disk f) <= 2000000000.
