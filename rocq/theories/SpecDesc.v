(** How ROOT writes objects, for a reader that takes the members of every class from
    class descriptions and knows only four classes by heart: [TObject], [TObjArray],
    [TArrayD] and [TArrayI].  From the model it takes the shape of a class description
    ([sinfo]) and of a tree that has been read; none of its readers and writers. *)
From Verif Require Import Base Bytes RBuf Key Obj Streamer RObj.

(** ** Descriptions *)

(** How a member of a class is stored. *)
Inductive layout :=
| LNum (signed : bool) (size : nat)               (* a big-endian number; floats by their bits *)
| LArray (signed : bool) (size : nat) (count : bytes)
                                                  (* one byte, then as many numbers as the member [count] says *)
| LText                                           (* a TString *)
| LInside (class : bytes)                         (* an object or base class stored in place *)
| LPointer.                                       (* an object behind a pointer, or none *)
Record desc := mkDesc { ds_version : Z; ds_members : list (bytes * layout) }.

(** The numbers of ROOT's basic types (TVirtualStreamerInfo::EReadWrite). *)
Definition basic_layout (t : Z) : option (bool * nat) :=
  match t with
  | 1 => Some (true, 1%nat) | 2 => Some (true, 2%nat) | 3 | 6 => Some (true, 4%nat) | 4 | 16 => Some (true, 8%nat)
  | 11 | 18 => Some (false, 1%nat) | 12 => Some (false, 2%nat) | 13 | 15 => Some (false, 4%nat) | 14 | 17 => Some (false, 8%nat)
  | 5 => Some (false, 4%nat) | 8 => Some (false, 8%nat)
  | _ => None
  end.
Definition layout_of (s : streamer) : option layout :=
  let t := e_etype (s_elem s) in
  match s with
  | SBase e _ => Some (LInside (n_name (e_named e)))
  | SString _ => Some LText
  | SObject e | SObjectAny e => Some (LInside (e_ename e))
  | SObjectPointer _ => Some LPointer
  | SBasicType e => if e_arrlen e =? 0 then option_map (fun p => LNum (fst p) (snd p)) (basic_layout t) else None
  | SBasicPointer _ _ count _ => option_map (fun p => LArray (fst p) (snd p) count) (basic_layout (t - 40))
  | _ => None
  end.
Fixpoint members_of (l : list streamer) : option (list (bytes * layout)) :=
  match l with
  | [] => Some []
  | s :: r =>
      match layout_of s, members_of r with
      | Some y, Some ys => Some ((n_name (e_named (s_elem s)), y) :: ys)
      | _, _ => None
      end
  end.
Definition desc_of (s : sinfo) : option desc := option_map (mkDesc (si_clsver s)) (members_of (si_elems s)).
(** The description of a class in a list of them: the first with its name. *)
Definition described_in (l : list sinfo) (class : bytes) : option desc :=
  match find (fun s => beqb (si_name s) class) l with Some s => desc_of s | None => None end.

(** ** What is read *)

(** An object behind a pointer carries the number of its first appearance, so the same
    object met twice can be told from two equal ones. *)
Inductive dval :=
| DNum (z : Z)
| DNums (l : list Z)
| DText (s : bytes)
| DObject (class : bytes) (members : list (bytes * dval))
| DItems (l : list dval)
| DNull
| DPtr (number : nat) (v : dval).

(** What is left of the bytes, the position of the first of them in the record (the
    record starts with its key), the classes and objects met so far by the positions
    under which ROOT remembers them, and the number of objects met so far. *)
Record cursor := mkCur {
  c_todo : bytes; c_at : Z; c_classes : list (Z * bytes); c_objects : list (Z * dval); c_count : nat }.
Definition G (A : Type) := M cursor A.
Definition no {A} : G A := fail EMisc.

Definition c_move (c : cursor) (n : Z) : cursor :=
  mkCur (skipn (Z.to_nat n) (c_todo c)) (c_at c + n) (c_classes c) (c_objects c) (c_count c).
Definition take (n : Z) : G bytes := fun c =>
  if (0 <=? n) && (n <=? zlen (c_todo c)) then Ok (firstn (Z.to_nat n) (c_todo c), c_move c n) else no c.
Definition num (signed : bool) (size : nat) : G Z :=
  b <- take (Z.of_nat size) ;; ret (if signed then sgn size (de b) else de b).
Definition word : G Z := num false 4.
Definition whereat : G Z := gets c_at.
Definition check (b : bool) : G unit := if b then ret tt else no.
(** A TString: one byte of length, or 255 and four bytes of it. *)
Definition text : G bytes :=
  n <- num false 1 ;; n' <- (if n =? 255 then word else ret n) ;; take n'.
(** A class name, up to its NUL. *)
Fixpoint before_nul (l : bytes) : option bytes :=
  match l with
  | [] => None
  | x :: r => if x =? 0 then Some [] else option_map (cons x) (before_nul r)
  end.
Definition class_name : G bytes := fun c =>
  match before_nul (c_todo c) with Some n => Ok (n, c_move c (zlen n + 1)) | None => no c end.

(** ** Pointers *)
Definition meet_class (at_ : Z) (class : bytes) : G unit :=
  modify (fun c => mkCur (c_todo c) (c_at c) ((at_, class) :: c_classes c) (c_objects c) (c_count c)).
Definition meet_object : G nat := fun c =>
  Ok (c_count c, mkCur (c_todo c) (c_at c) (c_classes c) (c_objects c) (S (c_count c))).
Definition keep_object (at_ : Z) (v : dval) : G unit :=
  modify (fun c => mkCur (c_todo c) (c_at c) (c_classes c) ((at_, v) :: c_objects c) (c_count c)).
Definition seen_object (at_ : Z) : G dval := fun c =>
  match alookup Z.eqb at_ (c_objects c) with Some v => Ok (v, c) | None => no c end.
Definition seen_class (at_ : Z) : G bytes := fun c =>
  match alookup Z.eqb at_ (c_classes c) with Some v => Ok (v, c) | None => no c end.

Section Read.
Variable lib : bytes -> option desc.

(** TBufferFile::ReadObjectAny and ReadClass.  A word 0 is no object; a word below
    2^30 names an object met before; otherwise it is 2^30 plus the number of bytes to
    come, and a second word follows: one below 2^31 names an object met before,
    2^32-1 announces a new class by its name, any other is 2^31 plus the position of
    a class met before.  An object is remembered under the position of its first word
    plus 2, a class under that of its tag plus 2. *)
Definition pointer (obj : bytes -> G dval) : G dval :=
  p <- whereat ;;
  w <- word ;;
  if w =? 0 then ret DNull
  else if w <? 2 ^ 30 then seen_object w
  else
    tag <- word ;;
    v <- (if tag <? 2 ^ 31 then seen_object tag
          else
            class <- (if tag =? 2 ^ 32 - 1
                      then c <- class_name ;; meet_class (p + 4 + 2) c ;;; ret c
                      else seen_class (tag - 2 ^ 31)) ;;
            i <- meet_object ;;
            v <- obj class ;;
            keep_object (p + 2) (DPtr i v) ;;;
            ret (DPtr i v)) ;;
    e <- whereat ;;
    check (w =? 2 ^ 30 + (e - p - 4)) ;;;
    ret v.

(** ** Members *)
Definition field (env : list (bytes * dval)) (name : bytes) : option dval :=
  option_map snd (find (fun p => beqb (fst p) name) env).

Definition member (obj : bytes -> G dval) (env : list (bytes * dval)) (y : layout) : G dval :=
  match y with
  | LNum sg n => z <- num sg n ;; ret (DNum z)
  | LArray sg n count =>
      there <- num false 1 ;;
      if there =? 0 then ret (DNums [])
      else
        match field env count with
        | Some (DNum k) => check (there =? 1) ;;; l <- repeatM (Z.to_nat k) (num sg n) ;; ret (DNums l)
        | _ => no
        end
  | LText => s <- text ;; ret (DText s)
  | LInside class => obj class
  | LPointer => pointer obj
  end.
Fixpoint members (obj : bytes -> G dval) (env : list (bytes * dval)) (ms : list (bytes * layout)) : G (list (bytes * dval)) :=
  match ms with
  | [] => ret env
  | m :: r => v <- member obj env (snd m) ;; members obj (env ++ [(fst m, v)]) r
  end.

(** TObject::Streamer: a version, then id and bits; an object that is referenced has
    two more bytes; the bit "on heap" is set. *)
Definition tobject : G dval :=
  v <- num false 2 ;;
  check (v =? 1) ;;;
  id <- word ;;
  bits <- word ;;
  (if Z.land bits 16 =? 0 then ret tt else num false 2 ;;; ret tt) ;;;
  ret (DObject (bs "TObject") [(bs "fUniqueID", DNum id); (bs "fBits", DNum (Z.lor bits 16777216))]).
(** TArrayD::Streamer, TArrayI::Streamer. *)
Definition tarray (signed : bool) (size : nat) : G dval :=
  n <- num true 4 ;; l <- repeatM (Z.to_nat n) (num signed size) ;; ret (DNums l).
(** The body of TObjArray::Streamer. *)
Definition tobjarray (obj : bytes -> G dval) : G (list (bytes * dval)) :=
  o <- tobject ;;
  s <- text ;;
  n <- num true 4 ;;
  low <- num true 4 ;;
  l <- repeatM (Z.to_nat n) (pointer obj) ;;
  ret [(bs "TObject", o); (bs "fName", DText s); (bs "fLowerBound", DNum low); (bs "items", DItems l)].
(** TLeaf::Streamer: a length of 0 counts as 1. *)
Definition settle (class : bytes) (l : list (bytes * dval)) : list (bytes * dval) :=
  if beqb class (bs "TLeaf")
  then map (fun p => if beqb (fst p) (bs "fLen") then (fst p, match snd p with DNum 0 => DNum 1 | v => v end) else p) l
  else l.

(** An object: 2^30 plus the number of bytes to come, the version of its class, its
    members in the order of the description, nothing after them. *)
Fixpoint object (depth : nat) (class : bytes) : G dval :=
  match depth with
  | O => no
  | S n =>
      if beqb class (bs "TObject") then tobject
      else if beqb class (bs "TArrayD") then tarray false 8
      else if beqb class (bs "TArrayI") then tarray true 4
      else
        match lib class with
        | None => no
        | Some d =>
            p <- whereat ;;
            w <- word ;;
            v <- num true 2 ;;
            check (v =? ds_version d) ;;;
            l <- (if beqb class (bs "TObjArray") then tobjarray (object n) else members (object n) [] (ds_members d)) ;;
            e <- whereat ;;
            check (w =? 2 ^ 30 + (e - p - 4)) ;;;
            ret (DObject class (settle class l))
        end
  end.

(** The payload of a record whose key takes [keylen] bytes, read as an object of
    class [class]. *)
Definition decode (keylen : Z) (class : bytes) (payload : bytes) : option dval :=
  match object (10 + length payload) class (mkCur payload keylen [] [] 0) with
  | Ok (v, c) => match c_todo c with [] => Some v | _ => None end
  | _ => None
  end.
End Read.

(** The payload of a record in a file whose contents are [d], given its key. *)
Definition payload (d : bytes) (k : key) : bytes :=
  firstn (Z.to_nat (k_objlen k)) (skipn (Z.to_nat (k_seek k + k_keylen k)) d).

(** The classes of which a file with a tree holds the description, ... *)
Definition with_tree : list bytes :=
  [bs "TTree"; bs "TNamed"; bs "TAttLine"; bs "TAttFill"; bs "TAttMarker"; bs "ROOT::TIOFeatures"; bs "TObjArray";
   bs "TSeqCollection"; bs "TCollection"; bs "TList"; bs "TArrayD"; bs "TArray"; bs "TArrayI"; bs "TBranchRef"; bs "TBranch"; bs "TRefTable"].
(** ... and the classes of objects in trees of which no file holds it. *)
Definition left_out : list bytes :=
  [bs "TLeaf"; bs "TLeafElement"; bs "TLeafI"; bs "TLeafS"; bs "TLeafD"; bs "TLeafF"; bs "TLeafB"; bs "TLeafL"; bs "TLeafC"; bs "TLeafO";
   bs "TBranchElement"].
Definition is_left_out (s : sinfo) : bool := existsb (beqb (si_name s)) left_out.

(** ** The same as a value: a tree as the library's own reader shows it *)
Definition bit (b : bool) : Z := if b then 1 else 0.
Definition v_obj (o : tobj) : dval :=
  DObject (bs "TObject") [(bs "fUniqueID", DNum (o_id o)); (bs "fBits", DNum (o_bits o))].
Definition v_named (n : named) : dval :=
  DObject (bs "TNamed") [(bs "TObject", v_obj (n_obj n)); (bs "fName", DText (n_name n)); (bs "fTitle", DText (n_title n))].
Definition v_line (a : attline) : dval :=
  DObject (bs "TAttLine") [(bs "fLineColor", DNum (al_color a)); (bs "fLineStyle", DNum (al_style a)); (bs "fLineWidth", DNum (al_width a))].
Definition v_fill (a : attfill) : dval :=
  DObject (bs "TAttFill") [(bs "fFillColor", DNum (af_color a)); (bs "fFillStyle", DNum (af_style a))].
Definition v_marker (a : attmarker) : dval :=
  DObject (bs "TAttMarker") [(bs "fMarkerColor", DNum (am_color a)); (bs "fMarkerStyle", DNum (am_style a)); (bs "fMarkerSize", DNum (am_width a))].
Definition v_io (z : Z) : dval := DObject (bs "ROOT::TIOFeatures") [(bs "fIOBits", DNum z)].
Definition v_array (l : list dval) : dval :=
  DObject (bs "TObjArray") [(bs "TObject", v_obj (Obj.mkObj 0 50331648)); (bs "fName", DText []); (bs "fLowerBound", DNum 0); (bs "items", DItems l)].

Definition v_tleaf (t : tleaf) : dval :=
  DObject (bs "TLeaf")
    [(bs "TNamed", v_named (tl_named t)); (bs "fLen", DNum (tl_len t)); (bs "fLenType", DNum (tl_etype t));
     (bs "fOffset", DNum (tl_offset t)); (bs "fIsRange", DNum (bit (tl_hasrange t))); (bs "fIsUnsigned", DNum (bit (tl_unsigned t)));
     (bs "fLeafCount", DNull)].
Definition v_leaf (l : leaf) : dval :=
  let '(a, b) := match lf_kind l with LKElement => (bs "fID", bs "fType") | _ => (bs "fMinimum", bs "fMaximum") end in
  DObject (leaf_class (lf_kind l)) [(bs "TLeaf", v_tleaf (lf_t l)); (a, DNum (lf_a l)); (b, DNum (lf_b l))].
(** Pointers to the leaves, numbered from [n]. *)
Fixpoint v_leaves (n : nat) (ls : list leaf) : list dval :=
  match ls with [] => [] | l :: r => DPtr n (v_leaf l) :: v_leaves (S n) r end.

(** The basket tables are stored with zeros up to the size declared. *)
Definition padded (m : Z) (l : list Z) : list Z := l ++ repeat 0 (Z.to_nat m - length l).
Definition v_branch (n : nat) (c : bcore) (ls : list leaf) : dval :=
  DObject (bs "TBranch")
    [(bs "TNamed", v_named (b_named c)); (bs "TAttFill", v_fill (b_fill c)); (bs "fCompress", DNum (b_compress c));
     (bs "fBasketSize", DNum (b_bsize c)); (bs "fEntryOffsetLen", DNum (b_eol c)); (bs "fWriteBasket", DNum (b_wb c));
     (bs "fEntryNumber", DNum (b_entrynum c)); (bs "fIOFeatures", v_io (b_iobits c)); (bs "fOffset", DNum (b_offset c));
     (bs "fMaxBaskets", DNum (b_maxb c)); (bs "fSplitLevel", DNum (b_split c)); (bs "fEntries", DNum (b_entries c));
     (bs "fFirstEntry", DNum (b_first c)); (bs "fTotBytes", DNum (b_tot c)); (bs "fZipBytes", DNum (b_zip c));
     (bs "fBranches", v_array []); (bs "fLeaves", v_array (v_leaves n ls)); (bs "fBaskets", v_array []);
     (bs "fBasketBytes", DNums (padded (b_maxb c) (b_bytes c))); (bs "fBasketEntry", DNums (padded (b_maxb c) (b_entry c)));
     (bs "fBasketSeek", DNums (padded (b_maxb c) (b_seek c))); (bs "fFileName", DText (b_fname c))].
Definition v_any_branch (n : nat) (b : branch) : dval :=
  let base := v_branch n (br_core b) (br_leaves b) in
  match br_elem b with
  | None => base
  | Some e =>
      DObject (bs "TBranchElement")
        [(bs "TBranch", base); (bs "fClassName", DText (be_class e)); (bs "fParentName", DText (be_parent e));
         (bs "fClonesName", DText (be_clones e)); (bs "fCheckSum", DNum (be_chksum e mod 2 ^ 32)); (bs "fClassVersion", DNum (be_clsver e));
         (bs "fID", DNum (be_id e)); (bs "fType", DNum (be_btype e)); (bs "fStreamerType", DNum (be_stype e));
         (bs "fMaximum", DNum (be_max e)); (bs "fBranchCount", DNull); (bs "fBranchCount2", DNull)]
  end.
(** Pointers to the branches: a branch is met before its leaves. *)
Fixpoint v_branches (n : nat) (l : list branch) : list dval :=
  match l with
  | [] => []
  | b :: r => DPtr n (v_any_branch (S n) b) :: v_branches (S n + length (br_leaves b)) r
  end.
(** The leaves of all the branches, the same objects again. *)
Fixpoint v_all_leaves (n : nat) (l : list branch) : list dval :=
  match l with
  | [] => []
  | b :: r => v_leaves (S n) (br_leaves b) ++ v_all_leaves (S n + length (br_leaves b)) r
  end.
Definition v_tree (t : tree branch) : dval :=
  DObject (bs "TTree")
    [(bs "TNamed", v_named (t_named t)); (bs "TAttLine", v_line (t_line t)); (bs "TAttFill", v_fill (t_fill t));
     (bs "TAttMarker", v_marker (t_marker t)); (bs "fEntries", DNum (t_entries t)); (bs "fTotBytes", DNum (t_tot t));
     (bs "fZipBytes", DNum (t_zip t)); (bs "fSavedBytes", DNum (t_saved t)); (bs "fFlushedBytes", DNum (t_flushed t));
     (bs "fWeight", DNum (t_weight t)); (bs "fTimerInterval", DNum (t_timer t)); (bs "fScanField", DNum (t_scan t));
     (bs "fUpdate", DNum (t_update t)); (bs "fDefaultEntryOffsetLen", DNum (t_deol t)); (bs "fNClusterRange", DNum (zlen (t_ranges t)));
     (bs "fMaxEntries", DNum (t_maxentries t)); (bs "fMaxEntryLoop", DNum (t_maxloop t)); (bs "fMaxVirtualSize", DNum (t_maxvirt t));
     (bs "fAutoSave", DNum (t_autosave t)); (bs "fAutoFlush", DNum (t_autoflush t)); (bs "fEstimate", DNum (t_estimate t));
     (bs "fClusterRangeEnd", DNums (t_ranges t)); (bs "fClusterSize", DNums (t_sizes t)); (bs "fIOFeatures", v_io (t_iobits t));
     (bs "fBranches", v_array (v_branches 0 (t_branches t))); (bs "fLeaves", v_array (v_all_leaves 0 (t_branches t)));
     (bs "fAliases", DNull); (bs "fIndexValues", DNums []); (bs "fIndex", DNums []); (bs "fTreeIndex", DNull);
     (bs "fFriends", DNull); (bs "fUserInfo", DNull); (bs "fBranchRef", DNull)].

(** The classes a member refers to: its base class, the class of an object, the class a
    pointer points to. *)
Definition refers (el : streamer) : list bytes :=
  match el with
  | SBase e _ => [n_name (e_named e)]
  | SObject e | SObjectAny e => [e_ename e]
  | SObjectPointer e => [filter (fun b => negb (b =? 42)) (e_ename e)]
  | _ => []
  end.
(** Classes every reader knows. *)
Definition built_in : list bytes := [bs "TObject"; bs "TVirtualIndex"].
