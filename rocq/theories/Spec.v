(** Specification vocabulary: what the property theorems say, in terms that do
    not mention the helpers of the model or of its proofs.  The only things taken
    from the model are the shapes of its data (buffers, values, results). *)
From Verif Require Import Base RBuf WBuf Values.

(** ** Writing to and reading from a byte buffer *)

(** Whatever the buffer already holds, [wm] succeeds and appends exactly [w]. *)
Definition appends {X} (wm : W X) (w : bytes) : Prop :=
  forall s, exists x, wm s = Ok (x, mkW (wp s ++ w) (woff s) (wrefp s) (wrefs s)).

(** Put at the place where [w] begins, whatever precedes and follows [w], [rm]
    returns [v] and stops exactly after [w]; nothing else changes. *)
Definition decodes {V} (rm : R V) (w : bytes) (v : V) : Prop :=
  forall before after off refs,
    rm (mkR (before ++ w ++ after) (zlen before) off refs None)
    = Ok (v, mkR (before ++ w ++ after) (zlen before + zlen w) off refs None).

(** What [wm] writes takes [n] bytes and is read by [rm] as [v]. *)
Definition round_trip {X V} (n : Z) (wm : W X) (rm : R V) (v : V) : Prop :=
  exists w, zlen w = n /\ appends wm w /\ decodes rm w v.

(** The same for records that contain objects: written into a buffer that is not
    empty and in which no object has been written yet, then read by a reader that
    has not met any object.  Positions must stay below 2^31. *)
Definition object_round_trip {X V} (wm : W X) (rm : R V) (v : V) : Prop :=
  forall before off, before <> [] -> 0 <= off ->
  exists x s' w,
    wm (mkW before off [] []) = Ok (x, s') /\ wp s' = before ++ w /\ woff s' = off /\
    (zlen before + zlen w + off < 2 ^ 31 ->
     forall after, exists refs,
       rm (mkR (before ++ w ++ after) (zlen before) off [] None)
       = Ok (v, mkR (before ++ w ++ after) (zlen before + zlen w) off refs None)).

(** ** Numbers *)

(** [w] is the big-endian, two's complement representation of [z] on [n] bytes. *)
Definition big_endian (n : nat) (z : Z) (w : bytes) : Prop :=
  length w = n /\
  forall i, (i < n)%nat -> nth i w 0 = (z / 256 ^ Z.of_nat (n - 1 - i)) mod 256.

(** Bytes and range of a scalar type; floats are bit patterns. *)
Definition scalar_bytes (p : prim) : nat :=
  match p with
  | I8 | U8 | PBool => 1
  | I16 | U16 => 2
  | I32 | U32 | F32 => 4
  | I64 | U64 | F64 => 8
  end.
Definition scalar_range (p : prim) : Z * Z :=
  match p with
  | I8 => (- 2 ^ 7, 2 ^ 7 - 1) | U8 => (0, 2 ^ 8 - 1)
  | I16 => (- 2 ^ 15, 2 ^ 15 - 1) | U16 => (0, 2 ^ 16 - 1)
  | I32 => (- 2 ^ 31, 2 ^ 31 - 1) | U32 => (0, 2 ^ 32 - 1)
  | I64 => (- 2 ^ 63, 2 ^ 63 - 1) | U64 => (0, 2 ^ 64 - 1)
  | F32 => (0, 2 ^ 32 - 1) | F64 => (0, 2 ^ 64 - 1)
  | PBool => (0, 1)
  end.
Definition scalar (p : prim) (z : Z) : Prop := fst (scalar_range p) <= z <= snd (scalar_range p).

(** ** Strings *)

(** Unicode scalar values and their UTF-8 encoding. *)
Definition code_point (c : Z) : Prop := 0 <= c < 55296 \/ 57344 <= c < 1114112.
Definition utf8_encode (c : Z) : bytes :=
  if c <? 128 then [c]
  else if c <? 2048 then [192 + c / 64; 128 + c mod 64]
  else if c <? 65536 then [224 + c / 4096; 128 + c / 64 mod 64; 128 + c mod 64]
  else [240 + c / 262144; 128 + c / 4096 mod 64; 128 + c / 64 mod 64; 128 + c mod 64].
Definition utf8 (s : bytes) : Prop :=
  exists cs, Forall code_point cs /\ s = flat_map utf8_encode cs.

(** A string the format can hold. *)
Definition text (s : bytes) : Prop := utf8 s /\ zlen s < 2 ^ 31.

(** How a string is laid out: its length on one byte, or 255 and its length on
    four bytes, then its bytes. *)
Definition string_layout (s w : bytes) : Prop :=
  if zlen s <? 255 then w = zlen s :: s
  else exists l, big_endian 4 (zlen s) l /\ w = 255 :: l ++ s.

(** ** Values *)
Inductive has_type : ty -> val -> Prop :=
| ht_scalar p z : scalar p z -> has_type (TPrim p) (VInt z)
| ht_string s : text s -> has_type TString (VStr s)
| ht_vec t l : zlen l < 2 ^ 31 -> Forall (has_type t) l -> has_type (TVec t) (VList l)
| ht_arr n t l : length l = n -> Forall (has_type t) l -> has_type (TArr n t) (VList l).

(** ** Polymorphic objects *)

(** An object to be written: its identity, its class, what writes its body and
    what it is once read. *)
Record item (O : Type) := mkItem { i_id : Z; i_class : bytes; i_body : W Z; i_value : O }.
Arguments mkItem {O}. Arguments i_id {O}. Arguments i_class {O}.
Arguments i_body {O}. Arguments i_value {O}.

(** Reading back: an object met before is absent. *)
Fixpoint firsts {O} (met : list Z) (l : list (item O)) : list (option O) :=
  match l with
  | [] => []
  | i :: r => (if existsb (Z.eqb (i_id i)) met then None else Some (i_value i))
              :: firsts (i_id i :: met) r
  end.

(** A class name: no NUL, UTF-8, at most 80 bytes. *)
Definition class_name (c : bytes) : Prop := ~ In 0 c /\ utf8 c /\ zlen c <= 80.

(** The classes the library can read. *)
Definition registered : list bytes :=
  [bs "TList"; bs "TMap"; bs "TObjArray"; bs "TStreamerInfo"; bs "TObjString";
   bs "TAttLine"; bs "TAttFill"; bs "TAttMarker"; bs "TTree"; bs "TBranch"; bs "TBranchElement"; bs "TBasket";
   bs "TLeaf"; bs "TLeafElement"; bs "TLeafI"; bs "TLeafS"; bs "TLeafD"; bs "TLeafF"; bs "TLeafB";
   bs "TLeafL"; bs "TLeafO"; bs "TLeafC";
   bs "TStreamerBase"; bs "TStreamerString"; bs "TStreamerBasicType"; bs "TStreamerObject";
   bs "TStreamerObjectPointer"; bs "TStreamerObjectAny"; bs "TStreamerBasicPointer";
   bs "TStreamerSTL"; bs "TStreamerSTLstring"].

(** The newest version of each kind of record the library claims to read. *)
Definition newest : list (bytes * Z) :=
  [(bs "TList", 5); (bs "TObjArray", 3); (bs "TStreamerInfo", 9); (bs "TObjString", 1);
   (bs "TAttLine", 2); (bs "TAttFill", 2); (bs "TAttMarker", 2);
   (bs "TTree", 20); (bs "TBranch", 13); (bs "TBranchElement", 10);
   (bs "TLeaf", 2); (bs "TLeafElement", 1); (bs "TLeafI", 1); (bs "TLeafS", 1); (bs "TLeafD", 1);
   (bs "TLeafF", 1); (bs "TLeafB", 1); (bs "TLeafL", 1); (bs "TLeafO", 1); (bs "TLeafC", 1);
   (bs "TStreamerBase", 3); (bs "TStreamerString", 2); (bs "TStreamerBasicType", 2);
   (bs "TStreamerObject", 2); (bs "TStreamerObjectPointer", 2); (bs "TStreamerObjectAny", 2);
   (bs "TStreamerBasicPointer", 2); (bs "TStreamerSTL", 3); (bs "TStreamerSTLstring", 2)].

(** A record header announcing version [v]: a byte count with its flag, then the
    version. *)
Definition announces (v : Z) (w : bytes) : Prop :=
  exists cnt c4 v2, 0 <= cnt < 2 ^ 30 /\ big_endian 4 (2 ^ 30 + cnt) c4 /\ big_endian 2 v v2
                    /\ w = c4 ++ v2.

(** ** Reading *)

(** Going from [r] to [r'] consumed the bytes [w] under the cursor, all of them
    inside the buffer, and changed nothing else. *)
Definition takes (r r' : rbuf) (w : bytes) : Prop :=
  exists before after,
    rp r = before ++ w ++ after /\ rc r = zlen before /\
    rp r' = rp r /\ rc r' = rc r + zlen w /\ roff r' = roff r /\ rrefs r' = rrefs r.
