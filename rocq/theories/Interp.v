(** The Rust name of a C++ type. *)
From Verif Require Import Base Bytes Values Names RObj TreeObj ColRead.

(** [str::find]: what precedes the first occurrence and what follows it. *)
Fixpoint find_sub (pat s : bytes) : option (bytes * bytes) :=
  match strip_prefix pat s with
  | Some t => Some ([], t)
  | None => match s with
            | [] => None
            | c :: r => match find_sub pat r with Some (a, b) => Some (c :: a, b) | None => None end
            end
  end.

(** rtree/streamer_type.rs 288-300 *)
Definition rust_names : list (bytes * bytes) :=
  [(bs "uint64_t", bs "u64"); (bs "int64_t", bs "i64"); (bs "uint32_t", bs "u32"); (bs "int32_t", bs "i32");
   (bs "uint16_t", bs "u16"); (bs "int16_t", bs "i16"); (bs "uint8_t", bs "u8"); (bs "int8_t", bs "i8");
   (bs "float", bs "f32"); (bs "double", bs "f64"); (bs "bool", bs "bool")].

(** rtree/streamer_type.rs 302-328, one turn of the loop; [right.find(end).unwrap()]
    panics when no bracket closes. *)
Definition rust_name (cr : bytes * bytes) (s : bytes) : res bytes :=
  let '(cpp, rust) := cr in
  let s := replace cpp rust s in
  let s := replace (rust ++ bs "[]") (bs "Slice<" ++ rust ++ bs ">") s in
  match find_sub (rust ++ bs "[") s with
  | None => Ok s
  | Some (_, after) =>
      if match after with 93 :: _ => true | _ => false end then Ok s
      else match find_sub (bs "]") after with
           | None => Panic
           | Some (inner, _) =>
               Ok (replace (rust ++ bs "[" ++ inner ++ bs "]") (bs "[" ++ rust ++ bs ";" ++ inner ++ bs "]") s)
           end
  end.
Fixpoint rust_turns (l : list (bytes * bytes)) (s : bytes) : res bytes :=
  match l with [] => Ok s | cr :: r => s <-? rust_name cr s ;; rust_turns r s end.

(** rtree/streamer_type.rs 281-332 [type_name_cpp_to_rust] *)
Definition type_name_cpp_to_rust (ty : bytes) : res bytes :=
  s <-? clean_type_name ty ;;
  let s := replace (bs "string") (bs "String") s in
  let s := replace (bs "vector") (bs "Vec") s in
  let s := replace (bs "map") (bs "HashMap") s in
  let s := replace (bs "set") (bs "HashSet") s in
  s <-? rust_turns rust_names s ;;
  Ok (replace (bs "char*") (bs "String") s).

(** rtree/branch/mod.rs 95-98 [interpretation] *)
Definition interpretation (sis : list sinfo) (b : branch) : res bytes :=
  n <-? item_type_name sis b ;; type_name_cpp_to_rust n.
