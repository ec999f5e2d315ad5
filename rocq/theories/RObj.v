(** The object types of a ROOT file and their readers: rtree/leaf.rs,
    rtree/basket.rs, rtree/branch/tbranch.rs, rtree/branch/tbranch_element.rs,
    rtree/tree/reader.rs, rdict/mod.rs and rtypes/factory.rs. *)
From Verif Require Export Streamer.

(** ** Types *)

(** rtree/leaf.rs 259-276; [shape] (always empty) and [count] (a marker nobody
    reads) are not kept *)
Record tleaf := mkTL {
  tl_named : named; tl_len : Z; tl_etype : Z; tl_offset : Z; tl_hasrange : bool; tl_unsigned : bool }.

(** rtree/leaf.rs 13-25 *)
Inductive lkind := LKBase | LKElement | LKI | LKS | LKD | LKF | LKB | LKL | LKO | LKC.

(** rtree/leaf.rs 410-416, 491-497, 585-593: [lf_a], [lf_b] are [min], [max]
    (id, ltype for an Element; unused for Base) *)
Record leaf := mkLeaf { lf_kind : lkind; lf_t : tleaf; lf_a : Z; lf_b : Z }.

(** rtree/basket.rs 12-21; [iobits] is never changed and not kept *)
Record basket := mkBasket {
  bk_key : key; bk_nevbuf : Z; bk_last : Z; bk_nevsize : Z; bk_bufsize : Z; bk_offsets : list Z }.

(** rtree/branch/tbranch.rs 22-71, without branches, leaves, baskets, reader,
    streamer infos and properties *)
Record bcore := mkBC {
  b_named : named; b_fill : attfill; b_compress : Z; b_bsize : Z; b_eol : Z; b_wb : Z;
  b_entrynum : Z; b_iobits : Z; b_offset : Z; b_maxb : Z; b_split : Z; b_entries : Z;
  b_first : Z; b_tot : Z; b_zip : Z;
  b_bytes : list Z; b_entry : list Z; b_seek : list Z; b_fname : bytes }.

(** rtree/branch/tbranch_element.rs 21-46 *)
Record belem := mkBE {
  be_class : bytes; be_parent : bytes; be_clones : bytes; be_chksum : Z; be_clsver : Z;
  be_id : Z; be_btype : Z; be_stype : Z; be_max : Z }.

(** rtree/branch/mod.rs 31-35: [el = None] is [Branch::Base]; [top] is
    [props.is_top_level == Some(true)] *)
Inductive branch :=
  Br (top : bool) (c : bcore) (el : option belem) (subs : list branch)
     (leaves : list leaf) (baskets : list basket).

Definition br_core (b : branch) : bcore := let '(Br _ c _ _ _ _) := b in c.
(** Fields of rtree/branch/mod.rs 31-35, through both variants *)
Definition br_elem (b : branch) : option belem := let '(Br _ _ e _ _ _) := b in e.
Definition br_subs (b : branch) : list branch := let '(Br _ _ _ s _ _) := b in s.
Definition br_leaves (b : branch) : list leaf := let '(Br _ _ _ _ l _) := b in l.
Definition br_baskets (b : branch) : list basket := let '(Br _ _ _ _ _ k) := b in k.
Definition br_top (b : branch) : bool := let '(Br t _ _ _ _ _) := b in t.
Definition br_name (b : branch) : bytes := n_name (b_named (br_core b)).

(** rtree/tree/base.rs 11-58, without the streamer infos; B is the type of
    branches *)
Record tree (B : Type) := mkTree {
  t_named : named; t_line : attline; t_fill : attfill; t_marker : attmarker;
  t_entries : Z; t_tot : Z; t_zip : Z; t_saved : Z; t_flushed : Z; t_weight : Z;
  t_timer : Z; t_scan : Z; t_update : Z; t_deol : Z; t_maxentries : Z; t_maxloop : Z;
  t_maxvirt : Z; t_autosave : Z; t_autoflush : Z; t_estimate : Z;
  t_ranges : list Z; t_sizes : list Z; t_iobits : Z; t_branches : list B }.
Arguments mkTree {B}.
Arguments t_named {B}. Arguments t_line {B}. Arguments t_fill {B}. Arguments t_marker {B}.
Arguments t_entries {B}. Arguments t_tot {B}. Arguments t_zip {B}. Arguments t_saved {B}.
Arguments t_flushed {B}. Arguments t_weight {B}. Arguments t_timer {B}. Arguments t_scan {B}.
Arguments t_update {B}. Arguments t_deol {B}. Arguments t_maxentries {B}. Arguments t_maxloop {B}.
Arguments t_maxvirt {B}. Arguments t_autosave {B}. Arguments t_autoflush {B}. Arguments t_estimate {B}.
Arguments t_ranges {B}. Arguments t_sizes {B}. Arguments t_iobits {B}. Arguments t_branches {B}.

(** What [Box<dyn FactoryItemRead>] can hold (rtypes/factory.rs 65-93).  The hash
    map of a [TMap] (rcont/tmap.rs 14-18) is kept as the list of its bindings, the
    latest first. *)
Inductive robj :=
| OArr (name : option bytes) (l : list robj)
| OList (name : bytes) (l : list robj)
| OMap (name : option bytes) (l : list (bytes * robj))
| OSInfo (s : sinfo)
| OStreamer (s : streamer)
| OString (o : tobj) (s : bytes)
| OFill (a : attfill)
| OLine (a : attline)
| OMarker (a : attmarker)
| OLeaf (l : leaf)
| OBranch (b : branch)
| OTree (t : tree branch)
| OBasket (b : basket).

(** rtree/leaf.rs 49-64 *)
Definition leaf_class (k : lkind) : bytes :=
  match k with
  | LKBase => bs "TLeaf" | LKElement => bs "TLeafElement" | LKI => bs "TLeafI" | LKS => bs "TLeafS"
  | LKD => bs "TLeafD" | LKF => bs "TLeafF" | LKB => bs "TLeafB" | LKL => bs "TLeafL"
  | LKO => bs "TLeafO" | LKC => bs "TLeafC"
  end.

(** [Object::class] of a read object (rtypes/factory.rs 65-93); a list answers
    with its own name (rcont/list.rs 67-74) *)
Definition o_class (o : robj) : bytes :=
  match o with
  | OArr _ _ => bs "TObjArray"
  | OList n _ => n
  | OMap _ _ => bs "TMap"
  | OSInfo _ => bs "TStreamerInfo"
  | OStreamer s => s_class s
  | OString _ _ => bs "TObjString"
  | OFill _ => bs "TAttFill"
  | OLine _ => bs "TAttLine"
  | OMarker _ => bs "TAttMarker"
  | OLeaf l => leaf_class (lf_kind l)
  | OBranch b => match br_elem b with None => bs "TBranch" | Some _ => bs "TBranchElement" end
  | OTree _ => bs "TTree"
  | OBasket _ => bs "TBasket"
  end.

(** ** Leaves *)

(** rtree/leaf.rs 315-369 *)
Definition tleaf_unmarshal (ro : R (option robj)) : R tleaf :=
  h <- read_header ;;
  ensure_max (h_vers h) 2 ;;;
  nm <- named_unmarshal ;;
  len <- read_i32 ;;
  ety <- read_i32 ;;
  off <- read_i32 ;;
  hr <- read_bool ;;
  un <- read_bool ;;
  c <- ro ;;
  (match c with
   | None => ret tt
   | Some o => match o with
               | OLeaf l => match lf_kind l with LKElement => ret tt | _ => panic end
               | _ => panic
               end
   end) ;;;
  ret (mkTL nm (if len =? 0 then 1 else len) ety off hr un).

(** rtree/leaf.rs 371-400; [count] is [None] for every leaf this crate writes *)
Definition tleaf_marshal (t : tleaf) : W Z :=
  len_minus_1 ;;;
  with_header 2
    (named_marshal (tl_named t) ;;;
     write_i32 (tl_len t) ;;;
     write_i32 (tl_etype t) ;;;
     write_i32 (tl_offset t) ;;;
     write_bool (tl_hasrange t) ;;;
     write_bool (tl_unsigned t) ;;;
     write_object_nil).

(** [as] of a [bool] *)
Definition z_of_bool (b : bool) : Z := if b then 1 else 0.

(** The [min]/[max] fields: rtree/leaf.rs 456-457, 548-549, 575-581, 631-632 *)
Definition read_bound (k : lkind) : R Z :=
  match k with
  | LKBase => ret 0
  | LKElement | LKI | LKC => read_i32
  | LKS => read_i16
  | LKD => read_f64
  | LKF => read_f32
  | LKB => read_i8
  | LKL => read_i64
  | LKO => b <- read_bool ;; ret (z_of_bool b)
  end.
Definition write_bound (k : lkind) (z : Z) : W unit :=
  match k with
  | LKBase => ret tt
  | LKElement | LKI | LKC => write_i32 z
  | LKS => write_i16 z
  | LKD => write_f64 z
  | LKF => write_f32 z
  | LKB => write_i8 z
  | LKL => write_i64 z
  | LKO => write_bool (negb (z =? 0))
  end.
Definition bound_ok (k : lkind) (z : Z) : Prop :=
  match k with
  | LKBase => z = 0
  | LKElement | LKI | LKC => is_i32 z
  | LKS => is_i16 z
  | LKD => is_u64 z
  | LKF => is_u32 z
  | LKB => is_i8 z
  | LKL => is_i64 z
  | LKO => z = 0 \/ z = 1
  end.

(** rtree/leaf.rs 446-464, 537-556, 620-641, and 315 for a plain [TLeaf] *)
Definition leaf_unmarshal (ro : R (option robj)) (k : lkind) : R leaf :=
  match k with
  | LKBase => t <- tleaf_unmarshal ro ;; ret (mkLeaf LKBase t 0 0)
  | _ =>
      h <- read_header ;;
      ensure_max (h_vers h) 1 ;;;
      t <- tleaf_unmarshal ro ;;
      a <- read_bound k ;;
      b <- read_bound k ;;
      ret (mkLeaf k t a b)
  end.

(** rtree/leaf.rs 27-47, 467-479, 559-571, 644-654 *)
Definition leaf_marshal (l : leaf) : W Z :=
  match lf_kind l with
  | LKBase => panic
  | k =>
      len_minus_1 ;;;
      with_header 1 (tleaf_marshal (lf_t l) ;;; write_bound k (lf_a l) ;;; write_bound k (lf_b l))
  end.

(** ** Baskets: rtree/basket.rs 162-292.  [self.class()] is always ["TBasket"],
    so the class test never fails. *)
Definition basket_unmarshal : R basket :=
  k <- key_unmarshal ;;
  vers <- read_i16 ;;
  ensure_max vers 3 ;;;
  bufsize0 <- read_i32 ;;
  nevsize <- read_i32 ;;
  (if nevsize <? 0 then panic else ret tt) ;;;
  nevbuf <- read_i32 ;;
  last <- read_i32 ;;
  flag0 <- read_u8 ;;
  let bufsize := if bufsize0 <? last then last else bufsize0 in
  let gen := 80 <=? flag0 in
  let flag := if gen then flag0 - 80 else flag0 in
  offsets <-
    (if negb gen && negb (flag =? 0) && negb (flag mod 10 =? 2) then
       offs <- (if 0 <? nevbuf then
                  n <- read_i32 ;;
                  (if n <? 0 then panic else ret tt) ;;;
                  o <- repeatM (Z.to_nat n) read_i32 ;;
                  (if (20 <? flag) && (flag <? 40) then panic else ret tt) ;;;
                  ret o
                else ret []) ;;
       (if 40 <? flag then panic else ret tt) ;;;
       ret offs
     else if gen then (if flag <=? 40 then panic else ret [])
     else ret []) ;;
  k' <- (if (flag =? 1) || (10 <? flag) then
           sz <- (if vers <=? 1 then read_i32 else ret last) ;;
           buf <- read_array_u8 sz ;;
           ret (mkKey (k_rvers k) (k_nbytes k) (k_objlen k) (k_date k) (k_keylen k) (k_cycle k)
                  (k_seek k) (k_pdir k) (k_class k) (k_name k) (k_title k) buf)
         else ret k) ;;
  ret (mkBasket k' nevbuf last nevsize bufsize offsets).

(** ** Branches *)

(** rtree/branch/mod.rs 37-45 [From<Box<dyn FactoryItemRead>> for Branch] *)
Definition as_branch {S} (o : robj) : M S branch :=
  match o with OBranch b => ret b | _ => panic end.
(** rtree/leaf.rs 239-255 *)
Definition as_leaf {S} (o : robj) : M S leaf :=
  match o with OLeaf l => ret l | _ => panic end.
(** rtree/basket.rs 44-51 *)
Definition as_basket {S} (o : robj) : M S basket :=
  match o with OBasket b => ret b | _ => panic end.

(** [vec![0; n as usize]] followed by reading it *)
Definition read_vec (n : Z) (rd : R Z) : R (list Z) :=
  if n <? 0 then panic else repeatM (Z.to_nat n) rd.
(** [&v[..n as usize]] *)
Definition slice_to {S} (v : list Z) (n : Z) : M S (list Z) :=
  if (n <? 0) || (zlen v <? n) then panic else ret (firstn (Z.to_nat n) v).

(** [x as i64] for the [f64] whose bits are [b]: towards zero, saturating, and 0
    for a NaN.  Numbers below 1, subnormal ones included, give 0. *)
Definition f64_as_i64 (b : Z) : Z :=
  let neg := Z.odd (b / 2 ^ 63) in
  let e := (b / 2 ^ 52) mod 2 ^ 11 in
  let m := b mod 2 ^ 52 in
  if e =? 2047 then
    if m =? 0 then (if neg then - 2 ^ 63 else 2 ^ 63 - 1) else 0
  else
    let a := if e <? 1023 then 0 else Z.shiftl (2 ^ 52 + m) (e - 1075) in
    if neg then Z.max (- 2 ^ 63) (- a) else Z.min (2 ^ 63 - 1) a.

(** [r.read_f64()? as i64] *)
Definition read_f64_i64 : R Z := b <- read_f64 ;; ret (f64_as_i64 b).

(** rtree/branch/tbranch.rs 340-655 *)
Definition tbranch_unmarshal (ro : R (option robj)) : R branch :=
  h <- read_header ;;
  let v := h_vers h in
  ensure_max v 13 ;;;
  if 10 <=? v then
    nm <- named_unmarshal ;;
    fill <- attfill_unmarshal ;;
    compress <- read_i32 ;;
    bsize <- read_i32 ;;
    eol <- read_i32 ;;
    wb <- read_i32 ;;
    enum <- read_i64 ;;
    iobits <- (if 13 <=? v then iobits_unmarshal else ret 0) ;;
    offset <- read_i32 ;;
    maxb <- read_i32 ;;
    split <- read_i32 ;;
    entries <- read_i64 ;;
    first <- (if 11 <=? v then read_i64 else ret 0) ;;
    tot <- read_i64 ;;
    zip <- read_i64 ;;
    ' (_, bo) <- objarray_unmarshal ro ;;
    subs <- mapM as_branch bo ;;
    ' (_, lo) <- objarray_unmarshal ro ;;
    leaves <- mapM as_leaf lo ;;
    ' (_, ko) <- objarray_unmarshal ro ;;
    baskets <- mapM as_basket ko ;;
    read_i8 ;;;
    bb <- read_vec maxb read_i32 ;;
    bytes' <- slice_to bb wb ;;
    read_i8 ;;;
    be <- read_vec maxb read_i64 ;;
    entry' <- slice_to be (wb + 1) ;;
    read_i8 ;;;
    bsk <- read_vec maxb read_i64 ;;
    seek' <- slice_to bsk wb ;;
    fname <- read_string ;;
    let split' := match subs with [] => split | _ => if split =? 0 then 1 else split end in
    ret (Br false
           (mkBC nm fill compress bsize eol wb enum iobits offset maxb split' entries first tot zip
                 bytes' entry' seek' fname)
           None subs leaves baskets)
  else if 6 <=? v then
    nm <- named_unmarshal ;;
    fill <- (if 7 <? v then attfill_unmarshal else ret attfill_default) ;;
    compress <- read_i32 ;;
    bsize <- read_i32 ;;
    eol <- read_i32 ;;
    wb <- read_i32 ;;
    enum <- read_i32 ;;
    offset <- read_i32 ;;
    maxb <- read_i32 ;;
    split <- (if 6 <? v then read_i32 else ret 0) ;;
    entries <- read_f64_i64 ;;
    tot <- read_f64_i64 ;;
    zip <- read_f64_i64 ;;
    ' (_, bo) <- objarray_unmarshal ro ;;
    subs <- mapM as_branch bo ;;
    ' (_, lo) <- objarray_unmarshal ro ;;
    leaves <- mapM as_leaf lo ;;
    ' (_, ko) <- objarray_unmarshal ro ;;
    baskets <- mapM as_basket ko ;;
    read_i8 ;;;
    bytes' <- read_vec maxb read_i32 ;;
    read_i8 ;;;
    entry' <- read_vec maxb read_i32 ;;
    two <- read_i8 ;;
    seek' <- (if two =? 2 then bsk <- read_vec maxb read_i64 ;; slice_to bsk wb
              else read_vec maxb read_i32) ;;
    fname <- read_string ;;
    let split' := match subs with [] => split | _ => if split =? 0 then 1 else split end in
    ret (Br false
           (mkBC nm fill compress bsize eol wb enum 0 offset maxb split' entries 0 tot zip
                 bytes' entry' seek' fname)
           None subs leaves baskets)
  else panic.

(** rtree/branch/tbranch_element.rs 445-507 *)
Definition tbranchelement_unmarshal (ro : R (option robj)) : R branch :=
  h <- read_header ;;
  let v := h_vers h in
  ensure_max v 10 ;;;
  b <- tbranch_unmarshal ro ;;
  class <- read_string ;;
  parent <- (if 1 <? v then read_string else ret []) ;;
  clones <- (if 1 <? v then read_string else ret []) ;;
  chksum <- (if 1 <? v then read_i32 else ret 0) ;;
  clsver <- (if 10 <=? v then read_i16 else (x <- read_u32 ;; ret (to_i16 x))) ;;
  id <- read_i32 ;;
  btype <- read_i32 ;;
  stype <- read_i32 ;;
  mx <- (if 1 <? v then
           m <- read_i32 ;;
           c1 <- ro ;;
           (match c1 with None => ret tt | Some _ => panic end) ;;;
           c2 <- ro ;;
           (match c2 with None => ret tt | Some _ => panic end) ;;;
           ret m
         else ret 0) ;;
  ret (Br false (br_core b) (Some (mkBE class parent clones chksum clsver id btype stype mx))
         (br_subs b) (br_leaves b) (br_baskets b)).

(** rtree/branch/mod.rs 136-141 [set_top_level(Some(true))] *)
Definition set_top (b : branch) : branch :=
  let '(Br _ c e s l k) := b in Br true c e s l k.

(** ** Trees: rtree/tree/reader.rs 133-325.  [user_infos] is checked and
    dropped. *)
Definition tree_unmarshal (ro : R (option robj)) : R (tree branch) :=
  h <- read_header ;;
  let v := h_vers h in
  ensure_max v 20 ;;;
  nm <- named_unmarshal ;;
  line <- attline_unmarshal ;;
  fill <- attfill_unmarshal ;;
  marker <- attmarker_unmarshal ;;
  ensure_min v 4 ;;;
  let count : R Z := if 5 <? v then read_i64 else read_f64_i64 in
  let long : R Z := if 5 <? v then read_i64 else read_i32 in
  entries <- count ;;
  tot <- count ;;
  zip <- count ;;
  saved <- count ;;
  flushed <- (if 18 <=? v then read_i64 else ret 0) ;;
  weight <- (if 16 <=? v then read_f64 else ret 4607182418800017408) ;;
  timer <- read_i32 ;;
  scan <- read_i32 ;;
  update <- read_i32 ;;
  deol <- (if 17 <=? v then read_i32 else ret 0) ;;
  nclus <- (if 19 <=? v then read_i32 else ret 0) ;;
  maxe <- (if 5 <? v then read_i64 else ret 0) ;;
  maxl <- long ;;
  maxv <- long ;;
  asave <- long ;;
  aflush <- (if 18 <=? v then read_i64 else ret 0) ;;
  est <- long ;;
  ' (ranges, sizes) <-
    (if 19 <=? v then
       (if nclus <? 0 then panic else ret tt) ;;;
       read_i8 ;;;
       a <- read_array_i64 (Z.to_nat nclus) ;;
       read_i8 ;;;
       b <- read_array_i64 (Z.to_nat nclus) ;;
       ret (a, b)
     else ret ([], [])) ;;
  iobits <- (if 20 <=? v then iobits_unmarshal else ret 0) ;;
  ' (_, bo) <- objarray_unmarshal ro ;;
  brs <- mapM as_branch bo ;;
  objarray_unmarshal ro ;;;
  let none : R unit := x <- ro ;; match x with None => ret tt | Some _ => panic end in
  (if 5 <? v then none else ret tt) ;;;
  none ;;;
  none ;;;
  (if 5 <? v then
     none ;;;
     none ;;;
     (x <- ro ;; match x with None => ret tt | Some (OList _ _) => ret tt | Some _ => panic end) ;;;
     none
   else ret tt) ;;;
  ret (mkTree nm line fill marker entries tot zip saved flushed weight timer scan update deol
         maxe maxl maxv asave aflush est ranges sizes iobits (map set_top brs)).

(** ** Streamer infos and the factory *)

(** rtypes/factory.rs 193-201: the streamer element classes *)
Definition streamer_classes : list bytes :=
  [bs "TStreamerBasicType"; bs "TStreamerString"; bs "TStreamerSTL"; bs "TStreamerBase";
   bs "TStreamerObject"; bs "TStreamerObjectPointer"; bs "TStreamerSTLstring";
   bs "TStreamerBasicPointer"; bs "TStreamerObjectAny"].

(** rdict/mod.rs 36-70: by class name, then downcast *)
Definition as_streamer {S} (o : robj) : M S streamer :=
  match o with
  | OStreamer s => ret s
  | _ => if existsb (beqb (o_class o)) streamer_classes then panic else fail EMisc
  end.

(** rdict/mod.rs 285-318 *)
Definition sinfo_unmarshal (ro : R (option robj)) : R sinfo :=
  h <- read_header ;;
  ensure_max (h_vers h) 9 ;;;
  nm <- named_unmarshal ;;
  chk <- read_u32 ;;
  ver <- read_i32 ;;
  o <- ro ;;
  match o with
  | Some (OArr _ l) => els <- mapM as_streamer l ;; ret (mkSI nm chk ver els)
  | _ => panic
  end.

(** rbase/objstring.rs 33-51 *)
Definition objstring_unmarshal : R robj :=
  h <- read_header ;;
  ensure_max (h_vers h) 1 ;;;
  o <- obj_unmarshal ;;
  s <- read_string ;;
  ret (OString o s).

(** [Option::unwrap] of a nested object *)
Definition need (ro : R (option robj)) : R robj :=
  o <- ro ;; match o with Some x => ret x | None => panic end.

(** rcont/tmap.rs 60-95: the [n] remaining pairs; [HashMap::insert] replaces *)
Fixpoint tmap_pairs (ro : R (option robj)) (n : nat) (acc : list (bytes * robj)) : R (list (bytes * robj)) :=
  match n with
  | O => ret acc
  | S n' =>
      k <- need ro ;;
      v <- need ro ;;
      match k with
      | OString _ s => tmap_pairs ro n' ((s, v) :: filter (fun p => negb (beqb (fst p) s)) acc)
      | _ => panic
      end
  end.
(** rcont/tmap.rs 59-95; no version is refused *)
Definition tmap_unmarshal (ro : R (option robj)) : R robj :=
  h <- read_header ;;
  (if 2 <? h_vers h then obj_unmarshal ;;; ret tt else ret tt) ;;;
  name <- (if 1 <? h_vers h then s <- read_string ;; ret (Some s) else ret None) ;;
  n <- read_i32 ;;
  l <- tmap_pairs ro (Z.to_nat n) [] ;;
  ret (OMap name l).

(** rtypes/factory.rs 209-218: the leaf classes *)
Definition leaf_kinds : list lkind :=
  [LKBase; LKElement; LKI; LKS; LKD; LKF; LKB; LKL; LKO; LKC].

(** rtypes/factory.rs 131-136, 172-224: [FACTORY.get(class)] followed by
    [unmarshal]; [None] is [ClassNameNotRegistered] *)
Definition dispatch (ro : R (option robj)) (class : bytes) : option (R robj) :=
  if beqb class (bs "TList") then Some (' (n, l) <- list_unmarshal ro ;; ret (OList n l))
  else if beqb class (bs "TMap") then Some (tmap_unmarshal ro)
  else if beqb class (bs "TObjArray") then Some (' (n, l) <- objarray_unmarshal ro ;; ret (OArr n l))
  else if beqb class (bs "TStreamerInfo") then Some (s <- sinfo_unmarshal ro ;; ret (OSInfo s))
  else if beqb class (bs "TObjString") then Some objstring_unmarshal
  else if beqb class (bs "TAttLine") then Some (a <- attline_unmarshal ;; ret (OLine a))
  else if beqb class (bs "TAttFill") then Some (a <- attfill_unmarshal ;; ret (OFill a))
  else if beqb class (bs "TAttMarker") then Some (a <- attmarker_unmarshal ;; ret (OMarker a))
  else if beqb class (bs "TTree") then Some (t <- tree_unmarshal ro ;; ret (OTree t))
  else if beqb class (bs "TBranch") then Some (b <- tbranch_unmarshal ro ;; ret (OBranch b))
  else if beqb class (bs "TBranchElement") then Some (b <- tbranchelement_unmarshal ro ;; ret (OBranch b))
  else if beqb class (bs "TBasket") then Some (b <- basket_unmarshal ;; ret (OBasket b))
  else match find (fun k => beqb class (leaf_class k)) leaf_kinds with
       | Some k => Some (l <- leaf_unmarshal ro k ;; ret (OLeaf l))
       | None =>
           match streamer_unmarshal class with
           | Some m => Some (s <- m ;; ret (OStreamer s))
           | None => None
           end
       end.

(** rtypes/factory.rs 131-136: is the class registered? *)
Definition known (class : bytes) : bool :=
  match dispatch (ret None) class with Some _ => true | None => false end.

(** Building and unmarshalling an object of a class; the recursion through
    [read_object_any_into] is bounded by [fuel]. *)
Fixpoint um (fuel : nat) (class : bytes) : R robj :=
  match fuel with
  | O => outoffuel
  | S f => match dispatch (read_object_any known (um f)) class with
           | Some m => m
           | None => fail EClassNotRegistered
           end
  end.

(** rbuffer.rs [read_object_any_into] with the factory *)
Definition roa (fuel : nat) : R (option robj) := read_object_any known (um fuel).

Lemma known_dispatch ro class : known class = true <-> exists m, dispatch ro class = Some m.
Proof.
  unfold known, dispatch.
  repeat match goal with
    |- context [if ?b then _ else _] => destruct b; [split; [intros _; eexists; reflexivity|reflexivity]|] end.
  destruct (find _ _); [split; [intros _; eexists; reflexivity|reflexivity]|].
  destruct (streamer_unmarshal class); [split; [intros _; eexists; reflexivity|reflexivity]|].
  split; [discriminate|intros [m Hm]; discriminate].
Qed.
