(** How ROOT stores sets and maps, nested in each other and in vectors. *)
From Verif Require Import Base Bytes WBuf Values Spec SpecRead SpecTree Coll.

(** Types whose values may have a header in front: all but numbers and arrays of numbers. *)
Fixpoint headed (t : cty) : bool :=
  match t with CPrim _ => false | CArr _ t => headed t | _ => true end.
(** Types that can be elements of sets and keys of maps. *)
Fixpoint hashable (t : cty) : bool :=
  match t with
  | CPrim F32 | CPrim F64 => false
  | CPrim _ | CString => true
  | CVec t | CArr _ t => hashable t
  | CSet _ | CMap _ _ => false
  end.

(** The keys of a map, or its values, one after the other: in front of the first, if it
    is not a number, there is a header of six bytes. *)
Definition column_of (t : cty) (ws : list bytes) (w : bytes) : Prop :=
  if headed t then
    match ws with [] => w = [] | _ => exists hd, entry_header 6 hd /\ w = hd ++ concat ws end
  else w = concat ws.

(** [laid t v w]: the bytes [w] are the value [v] of type [t].  The elements of sets and
    the keys of maps are distinct. *)
Fixpoint laid (t : cty) (v : cval) (w : bytes) {struct t} : Prop :=
  match t, v with
  | CPrim p, CInt z => scalar p z /\ w = be (scalar_bytes p) z
  | CString, CStr s => text s /\ appends (write_string s) w
  | CVec t', CList l => exists ws, Forall2 (laid t') l ws /\ zlen l < 2 ^ 30 /\ w = be 4 (zlen l) ++ concat ws
  | CArr n t', CList l => exists ws, Forall2 (laid t') l ws /\ length l = n /\ headed t' = false /\ w = concat ws
  | CSet t', CSetOf l => exists ws, Forall2 (laid t') l ws /\ NoDup l /\ hashable t' = true /\ zlen l < 2 ^ 30 /\ w = be 4 (zlen l) ++ concat ws
  | CMap tk tv, CMapOf l =>
      exists ks vs wk wv, Forall2 (laid tk) (map fst l) ks /\ Forall2 (laid tv) (map snd l) vs /\
        NoDup (map fst l) /\ hashable tk = true /\ zlen l < 2 ^ 30 /\
        column_of tk ks wk /\ column_of tv vs wv /\ w = be 4 (zlen l) ++ wk ++ wv
  | _, _ => False
  end.

(** Types with a map in them, which the checked reading does not check. *)
Fixpoint has_map (t : cty) : bool :=
  match t with CPrim _ | CString => false | CVec t | CArr _ t | CSet t => has_map t | CMap _ _ => true end.
(** The C++ names a type goes by; ... *)
Definition length_text (n : nat) (d : bytes) : Prop := decimal n d /\ (n = O -> d = bs "0").
Inductive main_name : cty -> bytes -> Prop :=
| main_prim p : main_name (CPrim p) (cpp_scalar p)
| main_string : main_name CString (bs "string")
| main_vec t c : main_name t c -> main_name (CVec t) (bs "vector<" ++ c ++ bs ">")
| main_arr n t c d : main_name t c -> length_text n d -> main_name (CArr n t) (c ++ bs "[" ++ d ++ bs "]")
| main_set t c : main_name t c -> main_name (CSet t) (bs "set<" ++ c ++ bs ">").
(** ... for strings there are two more, except within sets. *)
Inductive cpp_names : cty -> bytes -> Prop :=
| names_prim p : cpp_names (CPrim p) (cpp_scalar p)
| names_string c : In c [bs "string"; bs "char*"; bs "TString"] -> cpp_names CString c
| names_vec t c : cpp_names t c -> cpp_names (CVec t) (bs "vector<" ++ c ++ bs ">")
| names_arr n t c d : cpp_names t c -> length_text n d -> cpp_names (CArr n t) (c ++ bs "[" ++ d ++ bs "]")
| names_set t c : main_name t c -> cpp_names (CSet t) (bs "set<" ++ c ++ bs ">").
