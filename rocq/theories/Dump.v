(** The command-line tools: oxyroot-dump/src/main.rs and oxyroot-ls/src/main.rs, and
    [ReaderTree::show].  What is modelled is what they print, as data: the formatting of the
    lines ([{:?}], padding) is not, and neither are the messages on the error output. *)
From Verif Require Import Base Bytes Values Names RObj Key TreeObj File ColRead SliceRead Coll Interp.

(** [Result::unwrap] *)
Definition unwrap {A} (r : res A) : res A := match r with Err _ => Panic | x => x end.

(** ** [show] *)

(** [String::truncate]: panics when the place is inside a character. *)
Definition truncate (n : nat) (s : bytes) : res bytes :=
  match skipn n s with
  | c :: _ => if (128 <=? c) && (c <=? 191) then Panic else Ok (firstn n s)
  | [] => Ok s
  end.
(** rtree/tree/reader.rs 103-123 [show]: name, type and Rust type of each branch *)
Definition show_branch (sis : list sinfo) (b : branch) : res (bytes * bytes * bytes) :=
  n <-? item_type_name sis b ;;
  n' <-? truncate 30 n ;;
  i <-? interpretation sis b ;;
  Ok (br_name b, n', i).
Definition show_tree (sis : list sinfo) (t : tree branch) : res (list (bytes * bytes * bytes)) :=
  res_map (show_branch sis) (tree_branches_r t).

(** ** oxyroot-dump *)

(** How a branch is read: as values of a type, as slices of a type, or as a map of slices,
    which is not modelled. *)
Inductive dty := DAs (t : cty) | DSlices (t : ty) | DMapOfSlices.

(** oxyroot-dump/src/main.rs 136-1510: the 622 arms of the [match], which are the names of
    the types below and nothing else (grouped here by shape; [TString] is [String] there). *)
Definition dump_prims : list (bytes * prim) :=
  [(bs "u8", U8); (bs "i8", I8); (bs "i32", I32); (bs "u32", U32); (bs "i16", I16); (bs "u16", U16); (bs "bool", PBool)].
Definition dump_floats : list (bytes * prim) := [(bs "f32", F32); (bs "f64", F64)].
Definition dump_strings : list (bytes * ty) := [(bs "String", TString); (bs "TString", TString)].
(** What can be the key of a map or the element of a set, *)
Definition dump_keys : list (bytes * ty) := map (fun x => (fst x, TPrim (snd x))) dump_prims ++ dump_strings.
(** and the other elements. *)
Definition dump_elems : list (bytes * ty) := map (fun x => (fst x, TPrim (snd x))) (dump_prims ++ dump_floats) ++ dump_strings.

Definition named1 (name : bytes) (g : ty -> dty) (l : list (bytes * ty)) : list (bytes * dty) :=
  map (fun x => (name ++ bs "<" ++ fst x ++ bs ">", g (snd x))) l.
Definition named2 (name : bytes) (g : ty -> dty) (l : list (bytes * ty)) : list (bytes * dty) :=
  map (fun x => (bs "Vec<" ++ name ++ bs "<" ++ fst x ++ bs ">>", g (snd x))) l.
(** The arms of a map with values of one shape. *)
Definition maps_to (g : bytes -> bytes) (h : ty -> option cty) (l : list (bytes * ty)) : list (bytes * dty) :=
  flat_map (fun k => map (fun v => (bs "HashMap<" ++ fst k ++ bs "," ++ g (fst v) ++ bs ">",
                                    match h (snd v) with Some t => DAs (CMap (emb (snd k)) t) | None => DMapOfSlices end)) l) dump_keys.
Definition dump_arms : list (bytes * dty) :=
  map (fun x => (fst x, DAs (emb (snd x)))) (dump_elems ++ [(bs "u64", TPrim U64); (bs "i64", TPrim I64)]) ++
  named1 (bs "Vec") (fun t => DAs (CVec (emb t))) dump_elems ++
  named2 (bs "Vec") (fun t => DAs (CVec (CVec (emb t)))) dump_elems ++
  named1 (bs "Slice") DSlices dump_elems ++
  named1 (bs "HashSet") (fun t => DAs (CSet (emb t))) dump_keys ++
  named2 (bs "HashSet") (fun t => DAs (CVec (CSet (emb t)))) dump_keys ++
  maps_to (fun n => n) (fun t => Some (emb t)) dump_elems ++
  maps_to (fun n => bs "Vec<" ++ n ++ bs ">") (fun t => Some (CVec (emb t))) dump_elems ++
  maps_to (fun n => bs "Vec<Vec<" ++ n ++ bs ">>") (fun t => Some (CVec (CVec (emb t)))) dump_elems ++
  maps_to (fun n => bs "Slice<" ++ n ++ bs ">") (fun _ => None) dump_elems ++
  maps_to (fun n => bs "HashSet<" ++ n ++ bs ">") (fun t => Some (CSet (emb t))) dump_keys ++
  maps_to (fun n => bs "Vec<HashSet<" ++ n ++ bs ">>") (fun t => Some (CVec (CSet (emb t)))) dump_keys.

Definition arm_of (name : bytes) : option dty := option_map snd (find (fun x => beqb (fst x) name) dump_arms).

(** main.rs 1512: the regular expression [\[([A-Za-z0-9]+);([0-9]+)\]], its first match
    anywhere in the text, and the two groups of it *)
Definition sized_here (s : bytes) : option (bytes * bytes) :=
  match span (fun c => is_alpha c || is_digit c) s with
  | (a :: x, 59 :: s') => match span is_digit s' with
                          | (b :: y, 93 :: _) => Some (a :: x, b :: y)
                          | _ => None
                          end
  | _ => None
  end.
Fixpoint sized (s : bytes) : option (bytes * bytes) :=
  match s with
  | [] => None
  | c :: r => if c =? 91 then match sized_here r with Some x => Some x | None => sized r end else sized r
  end.
(** main.rs 1517-1530: the element types of sized slices *)
Definition sized_elems : list (bytes * ty) := dump_elems ++ [(bs "u64", TPrim U64); (bs "i64", TPrim I64)].

(** main.rs 92-106 [make_box_branch_for_type], 117-131 (sized slices) and 1511-1553.  The
    values are collected at once, while the tool takes them one by one as it prints.
    [SizedSlice] is read like an array (containers.rs 116-128). *)
Definition dump_branch {L : decoders} (d : bytes) (sis : list sinfo) (b : branch) : res (option (list cval)) :=
  i <-? interpretation sis b ;;
  match arm_of i with
  | Some (DAs t) => vs <-? unwrap (as_iter_c d sis t b) ;; Ok (Some vs)
  | Some (DSlices t) => vs <-? unwrap (as_iter_slice d sis t b) ;; Ok (Some (map (fun l => CList (map embv l)) vs))
  | Some DMapOfSlices => Unmodelled
  | None =>
      match sized i with
      | None => Ok None
      | Some (e, n) =>
          if 2 ^ 64 <=? undec n then Panic else
          match find (fun x => beqb (fst x) e) sized_elems with
          | None => Ok None
          | Some (_, t) => vs <-? as_iter_unchecked_c d sis (CArr (Z.to_nat (undec n)) (emb t)) b ;; Ok (Some vs)
          end
      end
  end.

(** main.rs 1557-1586 [ZiperDumperBranch]: one line for each row and each branch that can be
    interpreted, with the value, or with none when the branch has no more. *)
Definition line : Type := nat * bytes * option cval.
Definition dump_tree {L : decoders} (d : bytes) (sis : list sinfo) (t : tree branch) : res (list line) :=
  its <-? res_map (fun b => o <-? dump_branch d sis b ;; Ok (match o with Some vs => [(br_name b, vs)] | None => [] end)) (tree_branches_r t) ;;
  Ok (flat_map (fun i => map (fun it => (i, fst it, nth_error (snd it) i)) (concat its)) (seq 0 (Z.to_nat (t_entries t)))).

(** main.rs 1588-1635 [main] for a file that exists *)
Record dumped := Dumped { du_name : bytes; du_head : list (bytes * bytes * bytes); du_lines : list line }.
Definition dump_file {L : decoders} (d : bytes) : res (list dumped) :=
  f <-? unwrap (open_file d) ;;
  res_map (fun name =>
    t <-? unwrap (get_tree f name) ;;
    h <-? show_tree (f_sinfos f) t ;;
    l <-? dump_tree (f_disk f) (f_sinfos f) t ;;
    Ok (Dumped name h l)) (keys_name f).

(** ** oxyroot-ls/src/main.rs 17-58 [main] for a file that exists *)
Record listed := Listed { ls_class : bytes; ls_name : bytes; ls_title : bytes; ls_head : list (bytes * bytes * bytes) }.
Definition ls_file {L : decoders} (d : bytes) : res (list listed) :=
  f <-? unwrap (open_file d) ;;
  res_map (fun k =>
    t <-? unwrap (get_tree f (k_name k)) ;;
    h <-? show_tree (f_sinfos f) t ;;
    Ok (Listed (k_class k) (k_name k) (k_title k) h)) (d_keys (f_dir f)).
