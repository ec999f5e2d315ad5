(** Specification vocabulary for files and trees: what a user puts into a file and
    what reading it back must show.  From the model it takes the entry points
    ([session], [open_file], [get_tree], [as_iter], ...) and the shapes of their
    results, nothing of its invariants or proofs. *)
From Verif Require Import Base RBuf WBuf Values Key Obj TreeObj File Column ColRead TreeWrite TreeSession StreamerDb SpecName Spec.

(** ** What the user writes *)

(** A column is given a name, a type and the values its iterator yields. *)
Record column := Column { c_name : bytes; c_type : ty; c_values : list val }.
(** A tree is set up by adding columns and callbacks, in any order. *)
Inductive setup := AddColumn (c : column) | AddCallback.
Record table := Table { tb_name : bytes; tb_setup : list setup }.

Fixpoint columns (l : list setup) : list column :=
  match l with [] => [] | AddColumn c :: r => c :: columns r | AddCallback :: r => columns r end.
Fixpoint callbacks (l : list setup) : nat :=
  match l with [] => 0%nat | AddColumn _ :: r => callbacks r | AddCallback :: r => S (callbacks r) end.

(** The same as a sequence of calls. *)
Definition calls (t : table) : tprog :=
  mkTP (tb_name t) (map (fun s => match s with
                                  | AddColumn c => BBranch (c_name c) (c_type c) (map Some (c_values c))
                                  | AddCallback => BCallback
                                  end) (tb_setup t)).

(** ** What the library supports *)

(** Scalars, strings, vectors of scalars other than [bool], arrays of scalars. *)
Definition column_type (t : ty) : Prop :=
  match t with
  | TPrim _ | TString => True
  | TVec (TPrim p) => p <> PBool
  | TArr n (TPrim _) => (0 < n)%nat /\ Z.of_nat n < 2 ^ 31
  | _ => False
  end.

Definition column_ok (tree_name : bytes) (c : column) : Prop :=
  column_type (c_type c) /\ text (c_name c) /\ zlen (c_name c) + zlen tree_name <= 32000 /\
  Forall (has_type (c_type c)) (c_values c).

Definition table_ok (t : table) : Prop :=
  text (tb_name t) /\ zlen (tb_name t) <= 32000 /\ Forall (column_ok (tb_name t)) (columns (tb_setup t)).

(** Paths; one of more than 478 bytes leads to a file that cannot be opened (see C40). *)
Definition user_path (p : bytes) : Prop := text p /\ zlen p <= 32000.
Definition short_path (p : bytes) : Prop := zlen p <= 478.

(** The program that creates the file [path], writes the tables [ts] to it in this
    order and closes it has succeeded; [es] is what the callbacks of each table
    heard, [f] the file at the end, at most 2*10^9 bytes long.  No name is used more than
    32767 times. *)
Definition finished (path : bytes) (ts : list table) (es : list (list (nat * event))) (f : file) : Prop :=
  user_path path /\ Forall table_ok ts /\ few (map tb_name ts) /\
  session real_db path (map calls ts) = (f, Ok es) /\ zlen (f_disk f) <= 2000000000.

(** The reader recognises the dimension of an array by brackets in a title that
    starts with the column name. *)
Definition no_bracket (s : bytes) : Prop := ~ In 91 s /\ ~ In 93 s.

(** A vector entry is written with a byte count (2 bytes of version, 4 of length, then
    the elements) in which bit 30 is used as a flag; the reader recognises the entry by
    the first byte of that count, so the count must leave the lower six bits of that
    byte clear.  Up to 2^24 bytes that is always so. *)
Definition vector_fits (t : ty) (v : val) : Prop :=
  match t, v with
  | TVec (TPrim p), VList l => (6 + Z.of_nat (scalar_bytes p) * zlen l) mod 2 ^ 30 < 2 ^ 24
  | _, _ => True
  end.

(** A column the reader can give back. *)
Definition column_readable (c : column) : Prop :=
  no_bracket (c_name c) /\ Forall (vector_fits (c_type c)) (c_values c).

(** ** What reading shows *)

Definition longest (cs : list column) : nat := list_max (map (fun c => length (c_values c)) cs).

(** Reading branch [b] of the open file [f] as values of type [t]. *)
Definition values_of (f : file) (t : ty) (b : branch) : res (list val) :=
  as_iter (f_disk f) (f_sinfos f) t b.

(** The branch as if it had a single basket, of [len] bytes at [seek]. *)
Definition only_basket (seek len : Z) (b : branch) : branch :=
  let '(Br top c e subs ls bks) := b in
  Br top (mkBC (b_named c) (b_fill c) (b_compress c) (b_bsize c) (b_eol c) (b_wb c) (b_entrynum c) (b_iobits c) (b_offset c)
    (b_maxb c) (b_split c) (b_entries c) (b_first c) (b_tot c) (b_zip c) [len] (b_entry c) [seek] (b_fname c)) e subs ls bks.

(** The values are cut into the baskets that the branch lists, and each basket on its
    own gives back its part; the branch also lists how many entries come before each
    basket, and how many there are in total. *)
Definition shows_baskets (f : file) (c : column) (b : branch) : Prop :=
  exists parts, concat parts = c_values c /\
    length (b_seek (br_core b)) = length parts /\ length (b_bytes (br_core b)) = length parts /\
    b_entry (br_core b) = map (fun k => zlen (concat (firstn k parts))) (seq 0 (S (length parts))) /\
    (column_readable c ->
     Forall2 (fun sl vs => values_of f (c_type c) (only_basket (fst sl) (snd sl) b) = Ok vs)
       (combine (b_seek (br_core b)) (b_bytes (br_core b))) parts).

(** [d] is the number [n] written in decimal. *)
Definition decimal (n : nat) (d : bytes) : Prop :=
  d <> [] /\ Forall (fun c => 48 <= c <= 57) d /\ fold_left (fun a c => 10 * a + (c - 48)) d 0 = Z.of_nat n /\
  ((0 < n)%nat -> hd 0 d <> 48).
Definition cpp_scalar (p : prim) : bytes :=
  match p with
  | I8 => bs "int8_t" | U8 => bs "uint8_t" | I16 => bs "int16_t" | U16 => bs "uint16_t"
  | I32 => bs "int32_t" | U32 => bs "uint32_t" | I64 => bs "int64_t" | U64 => bs "uint64_t"
  | F32 => bs "float" | F64 => bs "double" | PBool => bs "bool"
  end.
(** The C++ name of the type of a column. *)
Inductive cpp_named : ty -> bytes -> Prop :=
| cpp_prim p : cpp_named (TPrim p) (cpp_scalar p)
| cpp_string : cpp_named TString (bs "char*")
| cpp_vec p : cpp_named (TVec (TPrim p)) (bs "vector<" ++ cpp_scalar p ++ bs ">")
| cpp_arr n p d : decimal n d -> cpp_named (TArr n (TPrim p)) (cpp_scalar p ++ bs "[" ++ d ++ bs "]").

Definition shows_column (f : file) (c : column) (b : branch) : Prop :=
  br_name b = c_name c /\ br_subs b = [] /\ b_entries (br_core b) = zlen (c_values c) /\
  (no_bracket (c_name c) ->
     (values_of f (c_type c) b = Ok (c_values c) <-> Forall (vector_fits (c_type c)) (c_values c)) /\
     (forall e, values_of f (c_type c) b <> Err e)) /\
  (no_bracket (c_name c) -> forall t, t <> c_type c -> values_of f t b = Err ETypeMismatch) /\
  (no_bracket (c_name c) -> exists n, item_type_name (f_sinfos f) b = Ok n /\ cpp_named (c_type c) n) /\
  shows_baskets f c b.

Definition shows_table (f : file) (t : table) (r : tree branch) : Prop :=
  n_name (t_named r) = tb_name t /\
  t_entries r = Z.of_nat (longest (columns (tb_setup t))) /\
  Forall2 (shows_column f) (columns (tb_setup t)) (t_branches r).

(** The open file [f] contains exactly the tables [ts], the last one of a name
    hiding the earlier ones.  (A name containing a semicolon is taken apart by the
    lookup and is left out here.) *)
Definition shows_tables (f : file) (ts : list table) : Prop :=
  keys_name f = map tb_name ts /\
  (forall earlier t later, ts = earlier ++ t :: later ->
     (forall t', In t' later -> tb_name t' <> tb_name t) -> ~ In 59 (tb_name t) ->
     exists r, get_tree f (tb_name t) = Ok r /\ shows_table f t r) /\
  (forall n, ~ In 59 n -> ~ In n (map tb_name ts) -> get_tree f n = Err EKeyNotInFile).

(** What the callbacks must hear while a table is written: [n + 1] rounds, each
    starting with [EvBefore] for every callback, then, for every column in order,
    that column for every callback. *)
Definition all_hear (ncb : nat) (e : event) : list (nat * event) := map (fun i => (i, e)) (seq 0 ncb).
Definition one_round (l : list setup) : list (nat * event) :=
  all_hear (callbacks l) EvBefore ++
  flat_map (fun c => all_hear (callbacks l) (EvBranch (c_name c))) (columns l).
Definition heard (t : table) : list (nat * event) :=
  concat (repeat (one_round (tb_setup t)) (S (longest (columns (tb_setup t))))).

(** ** The bytes on disk *)

(** Everything a program wrote, as the list of its write operations. *)
Definition writes_of (f : file) : list (Z * bytes) := match f_io f with IOWrite l => l | _ => [] end.

(** The state of the disk when the machine stops after some of the writes; the
    last one may have been cut short. *)
Inductive crash : list (Z * bytes) -> list (Z * bytes) -> Prop :=
| crash_between done rest : crash (done ++ rest) done
| crash_within done p a b rest : crash (done ++ (p, a ++ b) :: rest) (done ++ [(p, a)]).

(** Where the directory record of the file is: after 100 bytes of header, the key
    of the file (33 bytes and the path) and twice the path with an empty title. *)
Definition string_size (s : bytes) : Z := if zlen s <? 255 then 1 + zlen s else 5 + zlen s.
Definition directory_at (path : bytes) : Z := 100 + (33 + string_size path) + (string_size path + 1).

Definition first_record (path : bytes) : Z := directory_at path + 60.

(** The directory is saved when it is written again at that place: that write has
    begun, or is complete, among the writes [done] of the program [all]. *)
Definition save_begun (path : bytes) (done : list (Z * bytes)) : Prop := In (directory_at path) (map fst done).
Definition save_complete (path : bytes) (all done : list (Z * bytes)) : Prop :=
  exists b, In (directory_at path, b) all /\ In (directory_at path, b) done.
(** The header is written twice by [create] (blank, then contents) and rewritten
    in the same way when the file is closed. *)
Definition header_rewrite_begun (done : list (Z * bytes)) : Prop :=
  (2 < length (filter (fun w => Z.eqb 0 (fst w)) done))%nat.

(** A disk that cannot be opened: [open] returns an error or panics. *)
Definition refused (d : bytes) : Prop := forall f, open_file d <> Ok f.

(** The bytes [b] are on disk [d] at position [p]. *)
Definition on_disk (d : bytes) (p : Z) (b : bytes) : Prop :=
  exists before after, d = before ++ b ++ after /\ zlen before = p.

(** [h] is the header of a record at [p] whose payload is [b]: it decodes to a key
    that gives its position, its own length, the total length and the length of
    the payload.  A basket header has 19 more bytes after the key. *)
Definition record (p : Z) (h b : bytes) (k : key) : Prop :=
  exists w x, h = w ++ x /\ decodes key_unmarshal w k /\
    zlen x = (if beqb (k_class k) (bs "TBasket") then 19 else 0) /\
    k_seek k = p /\ k_keylen k = zlen h /\ k_nbytes k = zlen h + zlen b /\ k_objlen k = zlen b.

(** Write operations that put records one after the other from [p] up to [q], each
    one as its header followed by its payload; [l] lists position, header, payload
    and key of each. *)
Inductive records : Z -> list (Z * bytes) -> list (Z * bytes * bytes * key) -> Z -> Prop :=
| no_record p : records p [] [] p
| next_record p h b k ws l q : record p h b k -> records (p + zlen h + zlen b) ws l q ->
    records p ((p, h) :: (p + zlen h, b) :: ws) ((p, h, b, k) :: l) q.

(** Earlier writes end before later ones begin. *)
Definition in_order (ws : list (Z * bytes)) : Prop :=
  forall l1 w l2 w' l3, ws = l1 ++ w :: l2 ++ w' :: l3 -> fst w + zlen (snd w) <= fst w'.

(** The writes at or after the first record. *)
Definition record_writes (path : bytes) (ws : list (Z * bytes)) : list (Z * bytes) :=
  filter (fun w => Z.leb (first_record path) (fst w)) ws.
(** The writes that put these records one by one: headers and payloads. *)
Definition puts (l : list (Z * bytes * bytes * key)) : list (Z * bytes) :=
  flat_map (fun r => let '(p, h, b, _) := r in [(p, h); (p + zlen h, b)]) l.
