(** Reading sets and maps: the remaining [Unmarshaler] instances of rbytes/mod.rs. *)
From Verif Require Import Base Bytes RBuf Values Names Obj RObj TreeObj Decomp File ColRead.

(** Types with an [Unmarshaler] instance: those of [ty], [HashSet<T>] and [HashMap<K, V>]. *)
Inductive cty := CPrim (p : prim) | CString | CVec (t : cty) | CArr (n : nat) (t : cty) | CSet (t : cty) | CMap (k v : cty).
(** A set is the list of its elements and a map the list of its pairs, in the order in
    which they were first inserted (Rust gives them in an arbitrary order). *)
Inductive cval := CInt (z : Z) | CStr (s : bytes) | CList (l : list cval) | CSetOf (l : list cval) | CMapOf (l : list (cval * cval)).

(** [Eq] of the types that can be elements of sets or keys of maps: integers, booleans,
    strings, vectors and arrays of such.  Floats, sets and maps have no [Hash] instance. *)
Fixpoint ceqb (a b : cval) {struct a} : bool :=
  match a, b with
  | CInt x, CInt y => x =? y
  | CStr x, CStr y => beqb x y
  | CList l, CList m =>
      (fix go (l m : list cval) : bool :=
         match l, m with
         | [], [] => true
         | x :: l, y :: m => ceqb x y && go l m
         | _, _ => false
         end) l m
  | _, _ => false
  end.

(** [HashSet::insert]: an element that is there already stays. *)
Definition set_insert (l : list cval) (x : cval) : list cval := if existsb (ceqb x) l then l else l ++ [x].
(** [HashMap::insert]: the value of a key that is there already is replaced. *)
Fixpoint map_insert (l : list (cval * cval)) (kv : cval * cval) : list (cval * cval) :=
  match l with
  | [] => [kv]
  | (k, v) :: r => if ceqb k (fst kv) then (k, snd kv) :: r else (k, v) :: map_insert r kv
  end.
(** The loops of rbytes/mod.rs 363-388 and 390-425: insertions one after the other *)
Definition set_of (l : list cval) : list cval := fold_left set_insert l [].
Definition map_of (l : list (cval * cval)) : list (cval * cval) := fold_left map_insert l [].

(** rbytes/mod.rs 363-378 (HashSet), 394-429 (HashMap), and the instances in [Values.unmarshal].
    [reserve] and [with_capacity] panic for a negative size; allocation failure for large
    sizes is not modelled. *)
Fixpoint cunmarshal (t : cty) : R cval :=
  match t with
  | CPrim p => z <- read_prim p ;; ret (CInt z)
  | CString => do_skip_header ;;; s <- read_string ;; ret (CStr s)
  | CVec t' =>
    do_skip_header ;;;
    n <- read_i32 ;;
    if n <? 0 then panic else
    set_skip_header None ;;;
    l <- repeatM (Z.to_nat n) (cunmarshal t') ;; ret (CList l)
  | CArr n t' => l <- repeatM n (cunmarshal t') ;; ret (CList l)
  | CSet t' =>
    do_skip_header ;;;
    n <- read_i32 ;;
    if n <? 0 then panic else
    set_skip_header None ;;;
    l <- repeatM (Z.to_nat n) (cunmarshal t') ;; ret (CSetOf (set_of l))
  | CMap tk tv =>
    do_skip_header ;;;
    n <- read_i32 ;;
    if n <? 0 then panic else
    set_skip_header (Some 6) ;;;
    ks <- repeatM (Z.to_nat n) (k <- cunmarshal tk ;; set_skip_header (Some 0) ;;; ret k) ;;
    set_skip_header (Some 6) ;;;
    vs <- repeatM (Z.to_nat n) (v <- cunmarshal tv ;; set_skip_header (Some 0) ;;; ret v) ;;
    ret (CMapOf (map_of (combine ks vs)))
  end.

(** [Unmarshaler::class_name]: rbytes/mod.rs 60-66 (the default, for maps), 125-148, 272-277,
    315-327, 380-387 (sets), 443-453. *)
Fixpoint c_classes (t : cty) : option (list bytes) :=
  match t with
  | CPrim p => Some [prim_name p]
  | CString => Some [bs "string"; bs "char*"; bs "TString"]
  | CVec t' => match c_classes t' with
               | Some l => Some (map (fun c => bs "vector<" ++ c ++ bs ">") l)
               | None => None
               end
  | CArr n t' => match c_classes t' with
                 | Some l => Some (map (fun c => c ++ bs "[" ++ dec (Z.of_nat n) ++ bs "]") l)
                 | None => None
                 end
  | CSet t' => match c_classes t' with
               | Some l => Some [bs "set<" ++ hd [] l ++ bs ">"]
               | None => None
               end
  | CMap _ _ => None
  end.

(** rtree/branch/mod.rs 243-264 [as_iter] and 266-273 [as_iter_unchecked], collected *)
Definition as_iter_unchecked_c {L : decoders} (d : bytes) (sis : list sinfo) (t : cty) (b : branch) : res (list cval) :=
  get_basket d sis (cunmarshal t) b.
Definition as_iter_c {L : decoders} (d : bytes) (sis : list sinfo) (t : cty) (b : branch) : res (list cval) :=
  match c_classes t with
  | None => as_iter_unchecked_c d sis t b
  | Some names =>
      name <-? item_type_name sis b ;;
      if existsb (beqb name) names then as_iter_unchecked_c d sis t b else Err ETypeMismatch
  end.

(** The types of [ty] among these. *)
Fixpoint emb (t : ty) : cty :=
  match t with TPrim p => CPrim p | TString => CString | TVec t => CVec (emb t) | TArr n t => CArr n (emb t) end.
Fixpoint embv (v : val) : cval :=
  match v with VInt z => CInt z | VStr s => CStr s | VList l => CList (map embv l) end.
