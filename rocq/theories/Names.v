(** Type names and branch names: rtree/streamer_type.rs, the regular expressions of
    rtree/branch/tbranch.rs and rtree/branch/tbranch_element.rs, and the names of
    the [Marshaler]/[Unmarshaler] instances. *)
From Verif Require Export FileFinal Values.

(** ** Decimal numbers *)

(** [format!("{}", n)] for [n >= 0]. *)
Fixpoint dec_digits (fuel : nat) (z : Z) : bytes :=
  match fuel with
  | O => []
  | S n => if z <? 10 then [48 + z] else dec_digits n (z / 10) ++ [48 + z mod 10]
  end.
(** Enough fuel for all digits. *)
Definition dec (z : Z) : bytes := dec_digits (S (Z.to_nat (Z.log2 z))) z.

(** [char::is_ascii_digit], used by the expression classes [0-9] below *)
Definition is_digit (c : Z) : bool := (48 <=? c) && (c <=? 57).
(** Value of a string of digits. *)
Definition undec (s : bytes) : Z := fold_left (fun a c => 10 * a + (c - 48)) s 0.

(** ** [str] operations on ASCII text *)

(** [str::replace]: leftmost, non-overlapping.  [from] is never empty here. *)
Fixpoint replace_fuel (fuel : nat) (from to s : bytes) : bytes :=
  match fuel with
  | O => s
  | S n => match s with
           | [] => []
           | c :: r => match strip_prefix from s with
                       | Some t => to ++ replace_fuel n from to t
                       | None => c :: replace_fuel n from to r
                       end
           end
  end.
(** Enough fuel for all occurrences. *)
Definition replace (from to s : bytes) : bytes := replace_fuel (S (length s)) from to s.

(** [char::is_alphabetic] on ASCII (rtree/streamer_type.rs 199-250 [replace_string]) *)
Definition is_alpha (c : Z) : bool := ((65 <=? c) && (c <=? 90)) || ((97 <=? c) && (c <=? 122)).
Definition opt_alpha (c : option Z) : bool := match c with Some c => is_alpha c | None => false end.

(** rtree/streamer_type.rs 199-254 [replace_string]: occurrences next to a letter are
    left alone.  [prev] is the character before [s]. *)
Fixpoint replace_word_fuel (fuel : nat) (prev : option Z) (from to s : bytes) : bytes :=
  match fuel with
  | O => s
  | S n => match s with
           | [] => []
           | c :: r =>
               match strip_prefix from s with
               | Some t =>
                   (if opt_alpha prev || opt_alpha (hd_error t) then from else to)
                     ++ replace_word_fuel n (hd_error (rev from)) from to t
               | None => c :: replace_word_fuel n (Some c) from to r
               end
           end
  end.
Definition replace_string (s from to : bytes) : bytes := replace_word_fuel (S (length s)) None from to s.

(** Text on which byte and character positions agree. *)
Definition ascii (s : bytes) : bool := forallb (fun c => (0 <=? c) && (c <? 128)) s.

(** rtree/streamer_type.rs 257-277 [clean_type_name] on ASCII text. *)
Definition clean_ascii (ty : bytes) : bytes :=
  let r := replace (bs "unsigned int") (bs "uint32_t") ty in
  let r := replace_string r (bs "int") (bs "int32_t") in
  let r := replace (bs "uint32_t32_t") (bs "uint32_t") r in
  let r := replace (bs "int32_t32_t") (bs "int32_t") r in
  let r := replace (bs "uint32_t16_t") (bs "uint16_t") r in
  let r := replace (bs "uint32_t8_t") (bs "uint8_t") r in
  let r := replace (bs "int32_t16_t") (bs "int16_t") r in
  let r := replace (bs "int32_t8_t") (bs "int8_t") r in
  let r := replace (bs "int32_t64_t") (bs "int64_t") r in
  let r := replace (bs "unsigned short") (bs "uint16_t") r in
  let r := replace (bs "short") (bs "int16_t") r in
  let r := replace (bs "unsigned long") (bs "uint64_t") r in
  let r := replace (bs "long") (bs "int64_t") r in
  replace (bs " ") [] r.
(** rtree/streamer_type.rs 257-277 [clean_type_name] on ASCII text.  Other text is not modelled:
    [replace_string] mixes byte and character positions. *)
Definition clean_type_name (ty : bytes) : res bytes :=
  if ascii ty then Ok (clean_ascii ty) else Unmodelled.

(** ** Regular expressions *)

(** The class of the expressions in rtree/branch/tbranch.rs 291, tbranch_element.rs 133, 204 *)
Definition is_bracket (c : Z) : bool := (c =? 91) || (c =? 93).
(** Longest match of one repeated character class. *)
Fixpoint span (p : Z -> bool) (s : bytes) : bytes * bytes :=
  match s with
  | [] => ([], [])
  | c :: r => if p c then let '(a, b) := span p r in (c :: a, b) else ([], s)
  end.

(** tbranch.rs 288-289: does the title start with text without brackets followed by a
    non-empty text without brackets between brackets? *)
Definition has_dims (title : bytes) : bool :=
  match snd (span (fun c => negb (is_bracket c)) title) with
  | 91 :: r => match span (fun c => negb (is_bracket c)) r with
               | (_ :: _, 93 :: _) => true
               | _ => false
               end
  | _ => false
  end.

(** tbranch.rs 290: the digits of the first number without leading zero between
    brackets. *)
Fixpoint item_dim (title : bytes) : option bytes :=
  match title with
  | [] => None
  | c :: r =>
      let here := if c =? 91 then
                    match span is_digit r with
                    | (d :: ds, 93 :: _) => if d =? 48 then None else Some (d :: ds)
                    | _ => None
                    end
                  else None in
      match here with Some d => Some d | None => item_dim r end
  end.

(** tbranch.rs 293-304, tbranch_element.rs 133-147 *)
Definition title_dim (title : bytes) : res (option Z) :=
  if has_dims title then
    match item_dim title with
    | Some d => if undec d <? 2147483648 then Ok (Some (undec d)) else Panic
    | None => Ok (Some 0)
    end
  else Ok None.

(** The text after the last ['.'] of [s] and whether there is one. *)
Fixpoint after_last_dot (s : bytes) : option bytes :=
  match s with
  | [] => None
  | c :: r => match after_last_dot r with
              | Some t => Some t
              | None => if c =? 46 then Some r else None
              end
  end.
(** tbranch_element.rs 202-208 [clean_name]: second group of a regular expression:
    what follows the last dot (of the first line, since [.] does not match a
    newline) up to the next dot or bracket. *)
Definition clean_name (name : bytes) : bytes :=
  let '(line, rest) := span (fun c => negb (c =? 10)) name in
  let t := match after_last_dot line with Some t => t | None => line end in
  fst (span (fun c => negb ((c =? 46) || is_bracket c)) (t ++ rest)).

(** streamer_type.rs 7-11: first match of the token pattern on ASCII
    text: a word, possibly followed by "::" words and by stars, or one of the
    characters "<", ">", ",".  Only the word is kept; the flag says that something was matched after it. *)
Definition is_space (c : Z) : bool := (c =? 32) || ((9 <=? c) && (c <=? 13)).
Definition more_tokens (s : bytes) : bool :=
  match snd (span is_space s) with
  | 42 :: _ => true
  | 58 :: 58 :: r => match snd (span is_space r) with
                     | c :: _ => is_word c && negb (is_digit c)
                     | [] => false
                     end
  | _ => false
  end.
Definition token_start (c : Z) : bool := is_word c || (c =? 60) || (c =? 62) || (c =? 44).
Definition first_token (s : bytes) : option (bytes * bool) :=
  match snd (span (fun c => negb (token_start c)) s) with
  | [] => None
  | c :: r => if is_word c then let '(w, t) := span is_word (c :: r) in Some (w, more_tokens t)
              else Some ([c], false)
  end.

(** streamer_type.rs 13-31 [parse_typename] *)
Definition parse_typename (s : bytes) : res Z :=
  if negb (ascii s) then Unmodelled else
  match first_token s with
  | None => Panic
  | Some (w, more) =>
      if more then Ok 0
      else if beqb w (bs "vector") || beqb w (bs "set") then Ok 6
      else if beqb w (bs "map") then Ok 12
      else Ok 0
  end.

(** streamer_type.rs 33-141 [header_bytes_from_type] *)
Definition header_bytes_from_type (ty : Z) (s : option streamer) (class : bytes) : res Z :=
  let rest :=
    if ty =? -1 then parse_typename class
    else if ty <? 61 then (if 40 <? ty then Ok 1 else Ok 0)
    else if ty =? 65 then Ok 0
    else if ty =? 300 then Ok 6
    else Panic in
  match s with
  | Some (SString e) => if e_etype e =? 65 then Ok 0 else if e_etype e =? 56 then Panic else rest
  | Some (SStlString _ _ _) => Ok 6
  | _ => rest
  end.

(** streamer_type.rs 143-197 [_from_leaftype_to_str] *)
Definition from_leaftype (lt : Z) : option bytes :=
  if lt <? 0 then None else
  let lt := if (20 <? lt) && (lt <? 40) then lt - 20 else lt in
  let lt := if (40 <? lt) && (lt - 40 <? 40) then lt - 40 else lt in
  match lt with
  | 1 => Some (bs "int8_t") | 11 => Some (bs "uint8_t")
  | 2 => Some (bs "int16_t") | 12 => Some (bs "uint16_t")
  | 3 => Some (bs "int32_t") | 13 | 15 | 6 => Some (bs "uint32_t")
  | 4 => Some (bs "int64_t") | 14 => Some (bs "uint64_t")
  | 5 => Some (bs "float") | 8 => Some (bs "double")
  | 65 => Some (bs "TString")
  | _ => None
  end.

(** ** Names of the instances *)

(** rbytes/mod.rs 125-148: C++ names of the scalars. *)
Definition prim_name (p : prim) : bytes :=
  match p with
  | I8 => bs "int8_t" | U8 => bs "uint8_t" | I16 => bs "int16_t" | U16 => bs "uint16_t"
  | I32 => bs "int32_t" | U32 => bs "uint32_t" | I64 => bs "int64_t" | U64 => bs "uint64_t"
  | F32 => bs "float" | F64 => bs "double" | PBool => bs "bool"
  end.
(** rbytes/mod.rs 161-186 [Marshaler::class_name]; [None] is [unimplemented!]. *)
Fixpoint w_class (t : ty) : option bytes :=
  match t with
  | TPrim PBool => None
  | TPrim p => Some (prim_name p)
  | TVec t' => option_map (fun c => bs "vector<" ++ c ++ bs ">") (w_class t')
  | _ => None
  end.
(** [Unmarshaler::class_name]: rbytes/mod.rs 125-148, 272-277, 315-327, 443-453. *)
Fixpoint r_classes (t : ty) : list bytes :=
  match t with
  | TPrim p => [prim_name p]
  | TString => [bs "string"; bs "char*"; bs "TString"]
  | TVec t' => map (fun c => bs "vector<" ++ c ++ bs ">") (r_classes t')
  | TArr n t' => map (fun c => c ++ bs "[" ++ dec (Z.of_nat n) ++ bs "]") (r_classes t')
  end.
(** [Marshaler::root_code]: rbytes/mod.rs 188-236, 291-293, 349-351, 476-478. *)
Definition prim_code (p : prim) : bytes :=
  match p with
  | I8 => bs "B" | U8 => bs "b" | I16 => bs "S" | U16 => bs "s" | I32 => bs "I" | U32 => bs "i"
  | I64 => bs "L" | U64 => bs "l" | F32 => bs "F" | F64 => bs "D" | PBool => bs "B"
  end.
Fixpoint root_code (t : ty) : bytes :=
  match t with
  | TPrim p => prim_code p
  | TString => bs "string"
  | TVec t' => bs "vector<" ++ root_code t' ++ bs ">"
  | TArr n t' => bs "[" ++ dec (Z.of_nat n) ++ bs "]/" ++ root_code t'
  end.
(** [std::mem::size_of] *)
Fixpoint size_of (t : ty) : Z :=
  match t with
  | TPrim p => Z.of_nat (prim_size p)
  | TString | TVec _ => 24
  | TArr n t' => Z.of_nat n * size_of t'
  end.

(** rmeta/consts.rs 139-161 [EnumNamed::from_string] on the names above; [None] is
    [unimplemented!]. *)
Definition enum_of_prim (p : prim) : option Z :=
  match p with
  | I8 => Some 1 | U8 => Some 11 | I16 => Some 2 | U16 => Some 12 | I32 => Some 3 | U32 => Some 13
  | I64 => Some 16 | U64 => Some 17 | F32 => Some 5 | F64 => Some 8 | PBool => None
  end.
