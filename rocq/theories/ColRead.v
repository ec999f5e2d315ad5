(** Reading columns: rtree/basket.rs, rtree/branch/tbranch.rs,
    rtree/branch/tbranch_element.rs, rtree/branch/mod.rs. *)
From Verif Require Export Column.

(** ** Baskets *)

(** Subtraction of [i32]s (rtree/basket.rs 112), with overflow checks *)
Definition sub_i32 (a b : Z) : res Z := add_i32 a (- b).
(** [unwrap] *)
Definition unwrap {A} (r : res A) : res A := match r with Err _ => Panic | r => r end.

(** rtree/basket.rs 111: [chunks(4)] with each chunk turned into four bytes. *)
Fixpoint chunks4 (fuel : nat) (b : bytes) : res (list bytes) :=
  match fuel with
  | O => OutOfFuel
  | S n => match b with
           | [] => Ok []
           | x0 :: x1 :: x2 :: x3 :: r => l <-? chunks4 n r ;; Ok ([x0; x1; x2; x3] :: l)
           | _ => Panic
           end
  end.

(** Model only: [map] over a list with early exit (rtree/basket.rs 111-120) *)
Fixpoint res_map {A B} (g : A -> res B) (l : list A) : res (list B) :=
  match l with
  | [] => Ok []
  | a :: r => b <-? g a ;; l' <-? res_map g r ;; Ok (b :: l')
  end.

(** rtree/basket.rs 55-58 [BasketData] *)
Inductive bdata := Trust (n : Z) (buf : bytes) | UnTrust (n : Z) (buf : bytes) (offs : list Z).

(** rtree/basket.rs 102-123 [raw_data] *)
Definition raw_data {L : decoders} (d : bytes) (b : basket) : res bdata :=
  buf <-? unwrap (key_bytes d (bk_key b)) ;;
  border <-? sub_i32 (bk_last b) (k_keylen (bk_key b)) ;;
  if border =? k_objlen (bk_key b) then Ok (Trust (bk_nevbuf b) buf) else
  if (border <? 0) || (zlen buf <? border) then Panic else
  let data := zsub buf 0 border in
  ch <-? chunks4 (S (length buf)) (zsub buf border (zlen buf - border)) ;;
  os <-? res_map (fun c => sub_i32 (to_i32 (de c)) (k_keylen (bk_key b))) ch ;;
  match rev (tl os) with
  | [] => Panic
  | _ :: r => Ok (UnTrust (bk_nevbuf b) data (rev r ++ [border]))
  end.

(** rtree/branch/mod.rs 25-29 [BranchChunks] *)
Inductive chunk := Regular (n size : Z) (buf : bytes) | Irregular (n : Z) (data : list bytes) (hdr : Z).

(** rtree/branch/tbranch.rs 255, tbranch_element.rs 291, 410: [&buf[start as usize..stop as usize]] *)
Definition slice (buf : bytes) (start stop : Z) : res bytes :=
  if (0 <=? start) && (start <=? stop) && (stop <=? zlen buf) then Ok (zsub buf start (stop - start)) else Panic.
(** rtree/branch/tbranch.rs 250-258: the pieces between consecutive offsets. *)
Fixpoint slices (buf : bytes) (offs : list Z) : res (list bytes) :=
  match offs with
  | a :: (b :: _) as r => x <-? slice buf a b ;; l <-? slices buf r ;; Ok (x :: l)
  | _ => Ok []
  end.

(** Matches on the leaf in rtree/branch/tbranch.rs 219-236, tbranch_element.rs 355-382 *)
Definition leaf_is_c (l : leaf) : bool := match lf_kind l with LKC => true | _ => false end.
Definition leaf_is_elem (l : leaf) : bool := match lf_kind l with LKElement => true | _ => false end.

(** The leaf used for each basket: tbranch.rs 152-173, tbranch_element.rs 226-253. *)
Definition leaves_for (b : branch) : res (list leaf) :=
  let n := length (b_seek (br_core b)) in
  match br_leaves b with
  | [l] => Ok (repeat l n)
  | ls => if (length ls =? n)%nat then Ok ls else Panic
  end.
(** tbranch.rs 138-150: entry sizes; [size_leaves[0]] panics without leaves. *)
Definition sizes_for (b : branch) : res (list Z) :=
  let n := length (b_seek (br_core b)) in
  let sz := map (fun l => tl_etype (lf_t l)) (br_leaves b) in
  if (length sz =? n)%nat then Ok sz else
  match sz with
  | [] => if (n <=? 1)%nat then Ok [] else Panic
  | s :: _ => Ok (sz ++ repeat s (n - 1))
  end.

(** [usize] division by [chunk_size as usize]. *)
Definition div_usize (a b : Z) : res Z := if to_u64 b =? 0 then Panic else Ok (a / to_u64 b).

(** ** Branches with sub-branches: rtree/branch/mod.rs 305-460 *)

(** 305-313 [ZiperBranches]; an iterator is the list of the chunks it has still to give. *)
Record zipper := mkZip { z_its : list (list chunk); z_out : list (option chunk); z_cur : list Z; z_nb : list Z }.
Definition chunk_n (c : chunk) : Z := match c with Regular n _ _ => n | Irregular n _ _ => n end.

(** [v[i] = a] *)
Fixpoint upd {A} (i : nat) (a : A) (l : list A) : list A :=
  match l, i with
  | [], _ => []
  | _ :: r, O => a :: r
  | x :: r, S n => x :: upd n a r
  end.

(** 346-363 [fill_output]: only the iterators that have a chunk add a buffer. *)
Definition fill_output (z : zipper) : zipper :=
  let firsts := flat_map (fun it => match it with c :: _ => [c] | [] => [] end) (z_its z) in
  mkZip (map (fun it => tl it) (z_its z)) (z_out z ++ map Some firsts)
    (z_cur z ++ map (fun _ => 0) firsts) (z_nb z ++ map chunk_n firsts).

(** 365-382 [fill_output_one_branch] *)
Definition fill_one (i : nat) (z : zipper) : res zipper :=
  match nth_error (z_its z) i with
  | None => Panic
  | Some [] => Ok z
  | Some (c :: r) => Ok (mkZip (upd i r (z_its z)) (upd i (Some c) (z_out z)) (upd i 0 (z_cur z)) (upd i (chunk_n c) (z_nb z)))
  end.

(** 416-453: the loop over the buffers, from number [ib], [k] of them. *)
Fixpoint zip_loop (k ib : nat) (outbuf : bytes) (z : zipper) : res (bytes * zipper) :=
  match k with
  | O => Ok (outbuf, z)
  | S k' =>
      match nth_error (z_out z) ib, nth_error (z_cur z) ib, nth_error (z_nb z) ib with
      | Some (Some (Regular _ c buf)), Some cur, Some nb =>
          let csize := to_u64 c in
          x <-? slice buf (cur * csize) ((cur + 1) * csize) ;;
          let z1 := mkZip (z_its z) (z_out z) (upd ib (cur + 1) (z_cur z)) (z_nb z) in
          z2 <-? (if cur + 1 =? to_u64 nb
                  then fill_one ib (mkZip (z_its z1) (upd ib None (z_out z1)) (z_cur z1) (z_nb z1))
                  else Ok z1) ;;
          zip_loop k' (S ib) (outbuf ++ x) z2
      | _, _, _ => Panic
      end
  end.

(** 388-459 [next] *)
Definition is_regular (c : option chunk) : bool := match c with Some (Regular _ _ _) => true | _ => false end.
Definition zip_next (z : zipper) : res (option bytes * zipper) :=
  let z := match z_out z with [] => fill_output z | _ => z end in
  match z_out z with
  | [] => Ok (None, z)
  | out =>
      if existsb (fun c => match c with None => true | Some _ => false end) out then Ok (None, z)
      else if negb (forallb is_regular out) then Panic
      else bz <-? zip_loop (length (z_cur z)) 0 [] z ;; Ok (Some (fst bz), snd bz)
  end.

(** What [func] makes of all that [next] gives until it gives [None]. *)
Fixpoint zip_collect {A} (func : bytes -> res A) (fuel : nat) (z : zipper) : res (list A) :=
  match fuel with
  | O => OutOfFuel
  | S n => r <-? zip_next z ;;
           match r with
           | (None, _) => Ok []
           | (Some b, z') => v <-? func b ;; l <-? zip_collect func n z' ;; Ok (v :: l)
           end
  end.
(** 316-343 [new].  A call of [next] takes an entry from every chunk, and an entry is
    one of the announced ones or takes bytes of the buffer: this bounds the number of
    calls, except for chunks of empty entries that announce none (see C46). *)
Definition chunk_work (c : chunk) : nat :=
  match c with
  | Regular n _ buf => Z.to_nat n + length buf
  | Irregular n _ _ => Z.to_nat n
  end.
Definition zip_all {A} (func : bytes -> res A) (its : list (list chunk)) : res (list A) :=
  zip_collect func (S (S (list_sum (map chunk_work (concat its))))) (mkZip its [] [] []).

Section Reader.
Context {L : decoders}.
Variable d : bytes.           (* the file *)
Variable sis : list sinfo.    (* its class descriptions *)

(** tbranch_element.rs 89-98 [streamer] *)
Definition br_streamer (b : branch) (e : belem) : option streamer :=
  match sinfo_get sis (be_class e) with
  | None => None
  | Some si => find (fun s => beqb (n_name (e_named (s_elem s))) (clean_name (br_name b))) (si_elems si)
  end.

(** One basket: tbranch.rs 201-270 (no [el]), tbranch_element.rs 347-435. *)
Definition basket_chunk (b : branch) (seek len size : Z) (l : leaf) : res chunk :=
  buf <-? unwrap (read_at d seek len) ;;
  bk <-? unwrap (rrun 0 basket_unmarshal buf) ;;
  let size' := if leaf_is_c l || leaf_is_elem l then bk_nevsize bk else size in
  rd <-? raw_data d bk ;;
  match rd with
  | Trust n data => Ok (Regular n size' data)
  | UnTrust n data offs =>
      if leaf_is_c l then Ok (Regular n size' data)
      else if leaf_is_elem l then
        match br_elem b with
        | None => Panic
        | Some e =>
            hb <-? header_bytes_from_type (be_stype e) (br_streamer b e) (be_class e) ;;
            ps <-? slices data offs ;;
            Ok (Irregular n ps hb)
        end
      else
        m <-? div_usize (zlen data) size' ;;
        match br_elem b with
        | Some _ => Ok (Regular (to_i32 m) size' data)
        | None => if m =? to_u64 (b_entries (br_core b)) then Ok (Regular (to_i32 m) size' data)
                  else ps <-? slices data offs ;; Ok (Irregular n ps 0)
        end
  end.

(** [izip!] of rtree/branch/tbranch.rs 202 and tbranch_element.rs 334 *)
Fixpoint zip4 {A B C D} (a : list A) (b : list B) (c : list C) (e : list D) : list (A * B * C * D) :=
  match a, b, c, e with
  | x :: a', y :: b', z :: c', u :: e' => (x, y, z, u) :: zip4 a' b' c' e'
  | _, _, _, _ => []
  end.

(** Baskets kept inside the branch record: tbranch.rs 182-199 and
    tbranch_element.rs 255-312. *)
Definition embedded_chunk (b : branch) : res (list chunk) :=
  match br_baskets b with
  | [] => Ok []
  | [k] =>
      match br_elem b with
      | None => Ok [Regular (bk_nevbuf k) 1 (skipn (Z.to_nat (to_u64 (k_keylen (bk_key k)))) (k_buffer (bk_key k)))]
      | Some e =>
          hb <-? header_bytes_from_type (be_stype e) (br_streamer b e) (be_class e) ;;
          ps <-? slices (k_buffer (bk_key k)) (bk_offsets k ++ [to_i32 (zlen (k_buffer (bk_key k)))]) ;;
          Ok [Irregular 0 ps hb]
      end
  | _ => Panic
  end.

(** tbranch.rs 137-274, tbranch_element.rs 210-442 [get_baskets_buffer]; all the
    chunks are computed, in the code they are computed on demand. *)
Definition baskets_buffer (b : branch) : res (list chunk) :=
  let c := br_core b in
  sz <-? sizes_for b ;;
  ls <-? leaves_for b ;;
  em <-? embedded_chunk b ;;
  rest <-? res_map (fun '(seek, len, size, l) => basket_chunk b seek len size l)
             (filter (fun '(_, len, _, _) => 0 <? len) (zip4 (b_seek c) (b_bytes c) sz ls)) ;;
  Ok (em ++ rest).

(** ** Iterating *)

(** rtree/branch/mod.rs 195-236: what the closure [func] reads from a chunk; the
    closures of [as_iter] unwrap. *)
Definition read_chunk {A} (func : R A) (c : chunk) : res (list A) :=
  match c with
  | Regular n _ buf => if n <? 0 then Panic else unwrap (rrun 0 (repeatM (Z.to_nat n) func) buf)
  | Irregular _ data hdr =>
      res_map (fun p => unwrap (rrun 0 (set_skip_header (Some hdr) ;;; func) p)) data
  end.

(** rtree/branch/mod.rs 164-240 [get_basket].  The sub-branches are read as plain
    branches ([branch.into()], 322).  All their chunks are computed, in the code they
    are computed on demand. *)
Definition as_base (b : branch) : branch := let '(Br top c _ subs ls bks) := b in Br top c None subs ls bks.
Definition get_basket {A} (func : R A) (b : branch) : res (list A) :=
  match br_subs b with
  | [] => chs <-? baskets_buffer b ;; ls <-? res_map (read_chunk func) chs ;; Ok (concat ls)
  | subs => its <-? res_map (fun s => baskets_buffer (as_base s)) subs ;;
            zip_all (fun buf => unwrap (rrun 0 func buf)) its
  end.

(** rtree/leaf.rs 155-181 [type_name] *)
Definition leaf_type_name (l : leaf) : option bytes :=
  let u := tl_unsigned (lf_t l) in
  match lf_kind l with
  | LKBase | LKElement => None
  | LKI => Some (if u then bs "uint32_t" else bs "int32_t")
  | LKS => Some (if u then bs "uint16_t" else bs "int16_t")
  | LKB => Some (if u then bs "uint8_t" else bs "int8_t")
  | LKL => Some (if u then bs "uint64_t" else bs "int64_t")
  | LKD => Some (bs "double")
  | LKF => Some (bs "float")
  | LKO => Some (bs "bool")
  | LKC => Some (bs "char*")
  end.

(** rtree/branch/tbranch.rs 313-320, tbranch_element.rs 162-169 *)
Definition with_dim (s : bytes) (dim : option Z) : bytes :=
  match dim with
  | None => s
  | Some k => if 0 <? k then s ++ bs "[" ++ dec k ++ bs "]" else s ++ bs "[]"
  end.

(** tbranch.rs 280-328 [item_type_name] *)
Definition base_type_name (b : branch) : res bytes :=
  match br_leaves b with
  | [l] =>
      dim <-? title_dim (n_title (tl_named (lf_t l))) ;;
      match leaf_type_name l with
      | Some s => Ok (with_dim s dim)
      | None => Panic
      end
  | _ => Ok (bs "unknown")
  end.

(** tbranch_element.rs 109-200 [_item_type_name], rtree/branch/mod.rs 88-94 *)
Definition item_type_name (b : branch) : res bytes :=
  match br_elem b with
  | None => base_type_name b
  | Some e =>
      match br_subs b with
      | _ :: _ =>
          if br_top b then match be_class e with [] => Panic | c => Ok c end
          else match br_streamer b e with
               | None => Panic
               | Some s => Ok (n_name (e_named (s_elem s)))
               end
      | [] =>
          match br_leaves b with
          | [l] =>
              dim <-? title_dim (n_title (tl_named (lf_t l))) ;;
              match leaf_type_name l with
              | Some s => Ok s
              | None =>
                  match lf_kind l with
                  | LKElement =>
                      match from_leaftype (lf_b l) with
                      | Some s => Ok (with_dim s dim)
                      | None =>
                          if be_stype e =? 65 then Ok (bs "TString")
                          else if (be_stype e =? 300) || (be_stype e =? -1) then
                            match br_streamer b e with
                            | None => clean_type_name (be_class e)
                            | Some s => clean_type_name (e_ename (s_elem s))
                            end
                          else Panic
                      end
                  | _ => Panic
                  end
              end
          | _ => base_type_name b
          end
      end
  end.

(** rtree/branch/mod.rs 243-264 [as_iter], collected *)
Definition as_iter (t : ty) (b : branch) : res (list val) :=
  name <-? item_type_name b ;;
  if existsb (beqb name) (r_classes t) then get_basket (unmarshal t) b
  else Err ETypeMismatch.
End Reader.

(** ** Branch lookup: rtree/tree/reader.rs 38-73, tbranch.rs 107-119,
    rtree/branch/mod.rs 115-134 *)
Fixpoint branches_r (b : branch) : list branch :=
  let '(Br _ _ _ subs _ _) := b in flat_map (fun s => s :: branches_r s) subs.
Fixpoint find_branch (name : bytes) (b : branch) : option branch :=
  let '(Br _ _ _ subs _ _) := b in
  (fix go (l : list branch) : option branch :=
     match l with
     | [] => None
     | s :: r => if beqb (br_name s) name then Some s
                 else match find_branch name s with Some x => Some x | None => go r end
     end) subs.
Fixpoint find_in (name : bytes) (l : list branch) : option branch :=
  match l with
  | [] => None
  | s :: r => if beqb (br_name s) name then Some s
              else match find_branch name s with Some x => Some x | None => find_in name r end
  end.
Definition tree_branch (t : tree branch) (name : bytes) : option branch := find_in name (t_branches t).
Definition tree_branches_r (t : tree branch) : list branch :=
  flat_map (fun s => s :: branches_r s) (t_branches t).
