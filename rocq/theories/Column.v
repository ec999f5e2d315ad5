(** Writing columns: rtree/leaf.rs, rtree/wbasket.rs, rtree/basket.rs,
    rtree/branch/wbranch.rs and rtree/tree/writer.rs. *)
From Verif Require Export Names.

(** ** Leaves *)

(** rtree/leaf.rs 85-101 [make_leaf] by type name; only scalars have one. *)
Definition prim_leaf (p : prim) : lkind * bool :=
  match p with
  | I32 => (LKI, false) | U32 => (LKI, true) | I16 => (LKS, false) | U16 => (LKS, true)
  | I8 => (LKB, false) | U8 => (LKB, true) | I64 => (LKL, false) | U64 => (LKL, true)
  | F32 => (LKF, false) | F64 => (LKD, false) | PBool => (LKO, false)
  end.

(** rtree/leaf.rs 75-132 [Leaf::new]; a zero-length array divides by zero, an array of
    anything but scalars is [unimplemented!]. *)
Definition leaf_new (name : bytes) (t : ty) : res leaf :=
  match t with
  | TPrim p => let '(k, u) := prim_leaf p in
      Ok (mkLeaf k (mkTL (new_named name name) 1 (to_i32 (size_of t)) 0 false u) 0 0)
  | TString => Ok (mkLeaf LKC (mkTL (new_named name name) 1 24 0 false false) 0 0)
  | TVec _ => Ok (mkLeaf LKElement (mkTL (new_named name name) 1 0 0 false false) (-1) (-1))
  | TArr n t' =>
      let nelems := to_i32 (Z.of_nat n) in
      if nelems =? 0 then Panic else
      let etype := Z.quot (to_i32 (size_of t)) nelems in
      match t' with
      | TPrim p => let '(k, u) := prim_leaf p in
          if nelems <? 0 then Unmodelled else
          Ok (mkLeaf k (mkTL (new_named name (name ++ bs "[" ++ dec nelems ++ bs "]")) nelems etype 0 false u) 0 0)
      | _ => Panic
      end
  end.

(** rtree/leaf.rs 183-202 [write_to_buffer], 428-443 (strings; [sz as i32] below
    [2^31]), 606-617 (elements). *)
Definition leaf_write (l : leaf) (t : ty) (v : val) : W leaf :=
  match lf_kind l with
  | LKBase => panic
  | LKElement => with_header 9 (marshal t v) ;;; ret l
  | LKC =>
      p0 <- gets wpos ;;
      marshal t v ;;;
      p1 <- gets wpos ;;
      let sz := p1 - p0 in
      let tl := lf_t l in
      let len := if tl_len tl <=? sz then to_i32 sz else tl_len tl in
      ret (mkLeaf LKC (mkTL (tl_named tl) len (tl_etype tl) (tl_offset tl) (tl_hasrange tl) (tl_unsigned tl))
                  (lf_a l) (if lf_b l <=? sz then to_i32 sz else lf_b l))
  | _ => marshal t v ;;; ret l
  end.

(** ** Baskets *)

(** rtree/wbasket.rs 15-18 *)
Record wbasket := mkWB { wb_basket : basket; wb_buf : wbuf }.

Definition bk_set_nev b n := mkBasket (bk_key b) n (bk_last b) (bk_nevsize b) (bk_bufsize b) (bk_offsets b).
Definition bk_set_size b n := mkBasket (bk_key b) (bk_nevbuf b) (bk_last b) n (bk_bufsize b) (bk_offsets b).
Definition bk_set_offsets b o := mkBasket (bk_key b) (bk_nevbuf b) (bk_last b) (bk_nevsize b) (bk_bufsize b) o.

(** rtree/wbasket.rs 49: [v[i] = x] *)
Definition list_set (l : list Z) (i : Z) (x : Z) : res (list Z) :=
  if (0 <=? i) && (i <? zlen l)
  then Ok (firstn (Z.to_nat i) l ++ x :: skipn (S (Z.to_nat i)) l)
  else Panic.

(** rtree/wbasket.rs 28-61 [update].  [nev_buf] and [nev_size] stay far below [2^31]
    (a basket is flushed before it holds 32768 entries of one byte), so their
    additions are not checked. *)
Definition basket_update (b : basket) (sz : Z) : res basket :=
  let offset := sz + k_keylen (bk_key b) in
  b' <-? (match bk_offsets b with
          | [] => Ok b
          | _ =>
              let b1 :=
                if bk_nevsize b <=? bk_nevbuf b + 1 then
                  let ns := if 10 <? 2 * bk_nevsize b then 2 * bk_nevsize b else 10 in
                  let delta := Z.abs (zlen (bk_offsets b) - ns) in
                  bk_set_offsets (bk_set_size b ns) (bk_offsets b ++ repeat 0 (Z.to_nat delta))
                else b in
              o <-? list_set (bk_offsets b1) (bk_nevbuf b1) (to_i32 offset) ;;
              Ok (bk_set_offsets b1 o)
          end) ;;
  Ok (bk_set_nev b' (bk_nevbuf b' + 1)).

(** rtree/wbasket.rs 157-200 [marshal]; the I/O bits are always 0. *)
Definition basket_marshal (b : basket) : W unit :=
  key_marshal (bk_key b) ;;;
  write_i16 3 ;;;
  write_i32 (bk_bufsize b) ;;;
  write_i32 (bk_nevsize b) ;;;
  write_i32 (bk_nevbuf b) ;;;
  write_i32 (bk_last b) ;;;
  write_u8 0.

(** riofs/key.rs 300-324 [new_key_for_basket_internal] *)
Definition key_for_basket (name title : bytes) (cycle : Z) (f : file) : key :=
  let kl := f_keylen name title (bs "TBasket") f in
  mkKey (if file_big f then 1004 else 4) kl 0 now_ts kl cycle 100 (d_seekdir (f_dir f))
        (bs "TBasket") name title [].

(** rtree/basket.rs 61-100 [new_from_branch], rtree/wbasket.rs 21-26 *)
Definition basket_new (name tree_name : bytes) (cycle bufsize eol : Z) (f : file) : wbasket :=
  mkWB (mkBasket (key_for_basket name tree_name cycle f) 0 0 eol bufsize (repeat 0 (Z.to_nat eol))) (w_new 0).

(** rtree/wbasket.rs 63-154 [write_to_file].  Returns the key that was written and the
    basket as it is left. *)
Definition basket_write (wb : wbasket) : FM (key * wbasket) :=
  let b := wb_basket wb in
  let k0 := bk_key b in
  big <-! fgets file_big ;;
  let adjust := (k_rvers k0 <=? 1000) && big in
  last <-! flift (add_i32 (k_keylen k0) (to_i32 (zlen (wp (wb_buf wb))))) ;;
  let offs := if adjust then map (Z.add 8) (bk_offsets b) else bk_offsets b in
  buf <-! flift (match bk_offsets b with
                 | [] => Ok (wb_buf wb)
                 | _ => if (bk_nevbuf b <? 0) || (zlen offs <? bk_nevbuf b) then Panic else
                        ' (_, s) <-? (write_i32 (bk_nevbuf b + 1) ;;;
                                      iterM write_i32 (firstn (Z.to_nat (bk_nevbuf b)) offs) ;;;
                                      write_i32 0) (wb_buf wb) ;;
                        Ok s
                 end) ;;
  k <-! key_from_buffer (k_name k0) (k_title k0) (bs "TBasket") (k_cycle k0) (wp buf) ;;
  let b' := mkBasket k (bk_nevbuf b) (if adjust then last + 8 else last) (bk_nevsize b) (bk_bufsize b) offs in
  hdr <-! flift (wrun (k_keylen k) (basket_marshal b')) ;;
  fwrite (k_seek k) hdr ;;!
  fwrite (k_seek k + k_keylen k) (k_buffer k) ;;!
  fret (k, mkWB b' (w_new 0)).

(** ** Columns *)

(** rtree/branch/wbranch.rs 14-21.  The provider is the list of what its successive
    [next] calls return, [None] ever after. *)
Record wcol := mkWC {
  wc_ty : ty; wc_core : bcore; wc_elem : option belem; wc_leaf : leaf;
  wc_it : list (option val); wc_basket : option wbasket }.

Definition wc_name (c : wcol) : bytes := n_name (b_named (wc_core c)).

(** The fields of rtree/branch/tbranch.rs 23-66 that [write] changes. *)
Definition bc_set (c : bcore) (wb enum maxb entries tot zip : Z) (bytes entry seek : list Z) : bcore :=
  mkBC (b_named c) (b_fill c) (b_compress c) (b_bsize c) (b_eol c) wb enum (b_iobits c) (b_offset c)
    maxb (b_split c) entries (b_first c) tot zip bytes entry seek (b_fname c).
(** rtree/branch/wbranch.rs 14-21, assignments to fields *)
Definition wc_set_basket c x := mkWC (wc_ty c) (wc_core c) (wc_elem c) (wc_leaf c) (wc_it c) x.

(** rdict/streamers/mod.rs 14-56 [make_streamer_for_marshaler_type] for vectors of
    scalars; any other element type is not in [EnumNamed::from_string]. *)
Definition vec_sinfo (t : ty) : res sinfo :=
  match t with
  | TPrim p =>
      match w_class (TVec t), enum_of_prim p with
      | Some c, Some e =>
          Ok (mkSI (new_named c []) 0 0
                [SStl (mkEl (new_named c []) 500 24 0 0 (repeat 0 5) c) 1 e])
      | _, _ => Panic
      end
  | _ => Panic
  end.

(** rtree/branch/wbranch.rs 49-109 [new]: the column and the class description it adds
    to the tree. *)
Definition wcol_new (name : bytes) (t : ty) (it : list (option val)) : res (wcol * list sinfo) :=
  let core eol := mkBC (new_named name (name ++ bs "/" ++ root_code t)) attfill_default 0 32768 eol 0 0 0 0 10 0 0 0 0 0
                    [] [0] [] [] in
  l <-? leaf_new name t ;;
  match t with
  | TPrim _ | TArr _ _ => Ok (mkWC t (core 0) None l it None, [])
  | TString => Ok (mkWC t (core 1000) None l it None, [])
  | TVec t' =>
      si <-? vec_sinfo t' ;;
      Ok (mkWC t (core 1000) (Some (mkBE (si_name si) [] [] 0 0 (-1) 0 (-1) 0)) l it None, [si])
  end.

(** rtree/branch/wbranch.rs 164-184 [create_new_basket] *)
Definition create_new_basket (tree_name : bytes) (c : wcol) : FM wcol :=
  let core := wc_core c in
  if negb (to_i16 (b_wb core) + 1 <? 32768) then flift Panic else
  wb <-! fgets (basket_new (wc_name c) tree_name (to_i16 (b_wb core) + 1) (b_bsize core) (b_eol core)) ;;
  let maxb := if b_maxb core <? b_wb core then b_wb core else b_maxb core in
  fret (mkWC (wc_ty c)
          (bc_set core (b_wb core) (b_entrynum core) maxb (b_entries core) (b_tot core) (b_zip core)
                  (b_bytes core) (b_entry core) (b_seek core))
          (wc_elem c) (wc_leaf c) (wc_it c) (Some wb)).

(** rtree/branch/wbranch.rs 186-227 [flush] *)
Definition flush (c : wcol) : FM wcol :=
  match wc_basket c with
  | None => flift Panic
  | Some wb =>
      kw <-! basket_write wb ;;
      let k := fst kw in
      n <-! flift (add_i32 (k_keylen k) (k_objlen k)) ;;
      let core := wc_core c in
      fret (mkWC (wc_ty c)
              (bc_set core (b_wb core + 1) (b_entrynum core) (b_maxb core) (b_entries core)
                 (b_tot core + n) (b_zip core + k_nbytes k)
                 (b_bytes core ++ [k_nbytes k]) (b_entry core ++ [b_entries core]) (b_seek core ++ [k_seek k]))
              (wc_elem c) (wc_leaf c) (wc_it c) (Some (snd kw)))
  end.

(** rtree/branch/wbranch.rs 122-160: an entry goes into the current basket. *)
Definition write_entry (tree_name : bytes) (c : wcol) (wb : wbasket) (v : val) : FM (wcol * Z) :=
  let core := wc_core c in
  let sz_old := zlen (wp (wb_buf wb)) in
  b <-! flift (basket_update (wb_basket wb) sz_old) ;;
  ls <-! flift (leaf_write (wc_leaf c) (wc_ty c) v (wb_buf wb)) ;;
  let sz_new := zlen (wp (snd ls)) in
  let n := to_i32 (sz_new - sz_old) in
  let b' := if bk_nevsize b <? n then bk_set_size b n else b in
  let c' := mkWC (wc_ty c)
              (bc_set core (b_wb core) (b_entrynum core + 1) (b_maxb core) (b_entries core + 1) (b_tot core)
                 (b_zip core) (b_bytes core) (b_entry core) (b_seek core))
              (wc_elem c) (fst ls) (wc_it c) (Some (mkWB b' (snd ls))) in
  if 2 ^ 64 <=? sz_new + to_u64 n then flift Panic else
  if b_bsize core <=? sz_new + to_u64 n then
    c1 <-! flush c' ;;
    c2 <-! create_new_basket tree_name c1 ;;
    fret (c2, n)
  else fret (c', n).

(** rtree/branch/wbranch.rs 111-162 [write] *)
Definition wcol_write (tree_name : bytes) (c : wcol) : FM (wcol * option Z) :=
  c1 <-! (match wc_basket c with None => create_new_basket tree_name c | Some _ => fret c end) ;;
  match wc_basket c1 with
  | None => flift Panic
  | Some wb =>
      let c2 := mkWC (wc_ty c1) (wc_core c1) (wc_elem c1) (wc_leaf c1) (tl (wc_it c1)) (wc_basket c1) in
      match hd None (wc_it c1) with
      | None => fret (c2, None)
      | Some v => cn <-! write_entry tree_name c2 wb v ;; fret (fst cn, Some (snd cn))
      end
  end.

(** ** Trees *)

(** rtree/tree/writer.rs 34-43 [StateCallBack] *)
Inductive event := EvBefore | EvBranch (name : bytes) | EvAfter.

(** rtree/tree/writer.rs 28-32.  [wt_sinfos] is [None] once taken; the callbacks are
    represented by the notifications they receive, oldest first, [wt_cbs] of them. *)
Record wtree := mkWT {
  wt_tree : tree unit; wt_cols : list wcol; wt_sinfos : option (list sinfo); wt_cbs : nat; wt_events : list (nat * event) }.

(** rtree/tree/writer.rs 47-70 [new] *)
Definition tree0 (name : bytes) : tree unit :=
  mkTree (new_named name []) attline_default attfill_default attmarker_default
    0 0 0 0 0 4607182418800017408 0 25 0 1000 1000000000000 1000000000000 0 (-300000000) (-30000000) 1000000
    [] [] 0 [].
Definition wtree_new (name : bytes) : wtree := mkWT (tree0 name) [] (Some []) 0 [].

(** rtree/tree/writer.rs 78-83 [add_callback] *)
Definition add_callback (t : wtree) : wtree :=
  mkWT (wt_tree t) (wt_cols t) (wt_sinfos t) (S (wt_cbs t)) (wt_events t).

(** rtree/tree/writer.rs 85-106 [add_streamer], [new_branch]; after [write] the class
    descriptions are gone and adding one panics. *)
Definition new_branch (t : wtree) (name : bytes) (ty' : ty) (it : list (option val)) : res wtree :=
  ' (c, sis) <-? wcol_new name ty' it ;;
  sis' <-? (match wt_sinfos t, sis with
            | Some l, _ => Ok (Some (l ++ sis))
            | None, [] => Ok None
            | None, _ => Panic
            end) ;;
  Ok (mkWT (wt_tree t) (wt_cols t ++ [c]) sis' (wt_cbs t) (wt_events t)).

(** rtree/tree/writer.rs 126-128, 130-132: each callback is called in registration order. *)
Definition notify (n : nat) (e : event) : list (nat * event) := map (fun i => (i, e)) (seq 0 n).

(** rtree/tree/writer.rs 128-141: one pass over the columns.  The sum of the sizes is an
    [i32] sum. *)
Fixpoint write_row (tree_name : bytes) (ncb : nat) (cols : list (wcol * bool)) (tot : Z)
  : FM (list (wcol * bool) * Z * list (nat * event)) :=
  match cols with
  | [] => fret ([], tot, [])
  | (c, d) :: r =>
      let ev := notify ncb (EvBranch (wc_name c)) in
      cn <-! wcol_write tree_name c ;;
      tot' <-! (match snd cn with None => fret tot | Some n => flift (add_i32 tot n) end) ;;
      let d' := match snd cn with None => true | Some _ => d end in
      rest <-! write_row tree_name ncb r tot' ;;
      let '(r', t, ev') := rest in
      fret ((fst cn, d') :: r', t, ev ++ ev')
  end.

(** rtree/tree/writer.rs 141, 146: [tot_bytes += tot], [entries += n] *)
Definition t_add (t : tree unit) (tot n : Z) : tree unit :=
  mkTree (t_named t) (t_line t) (t_fill t) (t_marker t) (t_entries t + n) (t_tot t + tot) (t_zip t)
    (t_saved t) (t_flushed t) (t_weight t) (t_timer t) (t_scan t) (t_update t) (t_deol t)
    (t_maxentries t) (t_maxloop t) (t_maxvirt t) (t_autosave t) (t_autoflush t) (t_estimate t)
    (t_ranges t) (t_sizes t) (t_iobits t) (t_branches t).

(** rtree/tree/writer.rs 123-149: passes until every column has ended once.  The fuel
    bounds the number of passes; [rows_fuel] below always suffices. *)
Fixpoint write_rows (fuel : nat) (tree_name : bytes) (ncb : nat) (t : tree unit) (cols : list (wcol * bool))
  (ev : list (nat * event)) : FM (tree unit * list (wcol * bool) * list (nat * event)) :=
  match fuel with
  | O => flift OutOfFuel
  | S n =>
      row <-! write_row tree_name ncb cols 0 ;;
      let '(cols', tot, ev') := row in
      let ev2 := ev ++ notify ncb EvBefore ++ ev' in
      if forallb snd cols' then fret (t_add t tot 0, cols', ev2)
      else write_rows n tree_name ncb (t_add t tot 1) cols' ev2
  end.

(** Model only: a bound on the number of passes of rtree/tree/writer.rs 123-147. *)
Definition rows_fuel (cols : list wcol) : nat :=
  S (fold_right Nat.max 0%nat (map (fun c => length (wc_it c)) cols)).

(** rtree/tree/writer.rs 155-161 [flush] *)
Fixpoint flush_all (cols : list wcol) : FM (list wcol) :=
  match cols with
  | [] => fret []
  | c :: r => c' <-! flush c ;; r' <-! flush_all r ;; fret (c' :: r')
  end.

(** The columns as the objects that are marshalled.  A column and its leaf have
    distinct addresses. *)
Definition col_wbr (ic : Z * wcol) : Z * wbr :=
  let '(i, c) := ic in
  (2 * i, mkWBr (wc_core c) (wc_elem c) [(2 * i + 1, wc_leaf c)]).
Definition wtree_full (t : tree unit) (cols : list wcol) : tree (Z * wbr) :=
  mkTree (t_named t) (t_line t) (t_fill t) (t_marker t) (t_entries t) (t_tot t) (t_zip t)
    (t_saved t) (t_flushed t) (t_weight t) (t_timer t) (t_scan t) (t_update t) (t_deol t)
    (t_maxentries t) (t_maxloop t) (t_maxvirt t) (t_autosave t) (t_autoflush t) (t_estimate t)
    (t_ranges t) (t_sizes t) (t_iobits t) (map col_wbr (number 0 cols)).

(** The tree as an object: rtree/tree/writer.rs 184-305. *)
Definition tree_obj (t : tree unit) (cols : list wcol) : wobj :=
  mkObj (bs "TTree") (n_name (t_named t)) (n_title (t_named t)) 20 (tree_marshal (wtree_full t cols)).

Section DB.
Variable db : bytes -> Z -> option sinfo.

(** rtree/tree/writer.rs 163-182 [close] *)
Definition tree_close (t : tree unit) (cols : list wcol) (sis : option (list sinfo)) : FM (list wcol) :=
  cols' <-! flush_all cols ;;
  put_obj db (n_name (t_named t)) (tree_obj t cols') ;;!
  match sis with
  | None => flift Panic
  | Some l => fiter add_sinfo l ;;! fret cols'
  end.

(** rtree/tree/writer.rs 115-153 [write].  What the tree looks like after an error is
    not kept. *)
Definition tree_write (t : wtree) : FM wtree :=
  let name := n_name (t_named (wt_tree t)) in
  r <-! write_rows (rows_fuel (wt_cols t)) name (wt_cbs t) (wt_tree t)
          (map (fun c => (c, false)) (wt_cols t)) (wt_events t) ;;
  let '(t', cols, ev) := r in
  cols' <-! tree_close t' (map fst cols) (wt_sinfos t) ;;
  fret (mkWT t' cols' None (wt_cbs t) ev).
End DB.
