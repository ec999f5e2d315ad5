(** Reading a column step by step: the iterator that [as_iter] returns, for branches
    without sub-branches. *)
From Verif Require Export ColRead.

(** rtree/branch/mod.rs 193-236: the iterator of [flat_map]; [cu_front] is what is left of
    the values of the basket being handed out, [cu_todo] the baskets after it, which have
    not been read yet: an element is what reading that basket will come to.  (The file
    does not change while it is being read, so this may be determined beforehand.) *)
Record cursor (A : Type) := mkCursor { cu_front : list A; cu_todo : list (res (list A)) }.
Arguments mkCursor {A}. Arguments cu_front {A}. Arguments cu_todo {A}.

(** [next]: baskets without values are passed over; what fails panics when it is reached. *)
Fixpoint next_todo {A} (todo : list (res (list A))) : res (option A * cursor A) :=
  match todo with
  | [] => Ok (None, mkCursor [] [])
  | r :: rest => l <-? r ;; match l with [] => next_todo rest | a :: l' => Ok (Some a, mkCursor l' rest) end
  end.
(** One call of [next] on the iterator returned by [as_iter] (rtree/branch/mod.rs) *)
Definition next {A} (c : cursor A) : res (option A * cursor A) :=
  match cu_front c with
  | a :: l => Ok (Some a, mkCursor l (cu_todo c))
  | [] => next_todo (cu_todo c)
  end.

(** At most [n] calls of [next], until the first [None]: [take(n).collect()]. *)
Fixpoint take {A} (n : nat) (c : cursor A) : res (list A * cursor A) :=
  match n with
  | O => Ok ([], c)
  | S n' => x <-? next c ;;
            match fst x with
            | None => Ok ([], snd x)
            | Some a => r <-? take n' (snd x) ;; Ok (a :: fst r, snd r)
            end
  end.

Section Open.
Context {L : decoders}.
Variables (d : bytes) (sis : list sinfo).

(** tbranch.rs 182-199, tbranch_element.rs 255-312: the number of embedded baskets and the
    size of the header are looked at at once, the basket is cut when it is reached. *)
Definition embedded_todo (b : branch) : res (list (res chunk)) :=
  match br_baskets b with
  | [] => Ok []
  | [k] =>
      match br_elem b with
      | None => Ok [Ok (Regular (bk_nevbuf k) 1 (skipn (Z.to_nat (to_u64 (k_keylen (bk_key k)))) (k_buffer (bk_key k))))]
      | Some e =>
          hb <-? header_bytes_from_type (be_stype e) (br_streamer sis b e) (be_class e) ;;
          Ok [ps <-? slices (k_buffer (bk_key k)) (bk_offsets k ++ [to_i32 (zlen (k_buffer (bk_key k)))]) ;; Ok (Irregular 0 ps hb)]
      end
  | _ => Panic
  end.

(** tbranch.rs 137-274, tbranch_element.rs 210-442 [get_baskets_buffer] *)
Definition baskets_todo (b : branch) : res (list (res chunk)) :=
  let c := br_core b in
  sz <-? sizes_for b ;;
  ls <-? leaves_for b ;;
  em <-? embedded_todo b ;;
  Ok (em ++ map (fun '(seek, len, size, l) => basket_chunk d sis b seek len size l)
              (filter (fun '(_, len, _, _) => 0 <? len) (zip4 (b_seek c) (b_bytes c) sz ls))).

(** rtree/branch/mod.rs 164-264 [as_iter]; branches with sub-branches are not modelled
    here. *)
Definition open_iter (t : ty) (b : branch) : res (cursor val) :=
  name <-? item_type_name sis b ;;
  if existsb (beqb name) (r_classes t) then
    match br_subs b with
    | [] => todo <-? baskets_todo b ;; Ok (mkCursor [] (map (fun c => c' <-? c ;; read_chunk (unmarshal t) c') todo))
    | _ => Unmodelled
    end
  else Err ETypeMismatch.
End Open.
