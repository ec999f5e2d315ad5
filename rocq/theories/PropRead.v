(** Properties of reading: branches made of sub-branches, slices. *)
From Verif Require Import Base RBuf Values Key Obj TreeObj File Column ColRead SliceRead StreamerDb Spec SpecTree SpecRead ZipFacts Sample ColOps WBuf CodecFacts Codec Bytes.

(** ** C33: branches made of sub-branches *)

(** Each entry of the branch is put together from the corresponding entries of its
    sub-branches: the bytes given to the decoder are those of the i-th entries one after
    the other, for every i below the number of entries of the shortest sub-branch,
    wherever the baskets of the sub-branches begin and end. *)
Theorem C33_entries_are_put_together {A} d sis (func : R A) b its :
  br_subs b <> [] ->
  Forall2 (fun s chs => baskets_buffer d sis (as_base s) = Ok chs /\ chs <> [] /\ Forall full_chunk chs) (br_subs b) its ->
  get_basket d sis func b = res_map (fun e => unwrap (rrun 0 func e)) (rows (map entries its)).
Proof.
  intros N F. unfold get_basket. destruct (br_subs b) as [|s0 subs0]; [contradiction|].
  assert (E : res_map (fun s => baskets_buffer d sis (as_base s)) (s0 :: subs0) = Ok its).
  { clear N. induction F as [|s c subs its (H & _) _ IH]; cbn [res_map]; [reflexivity|]. rewrite H. cbn [rbind]. now rewrite IH. }
  rewrite E. cbn [rbind]. rewrite zip_all_ok; [reflexivity| |].
  - inversion F. discriminate.
  - clear E N. induction F as [|s c subs its (_ & H1 & H2) _ IH]; constructor; auto.
Qed.

(** So, reading one field of a fixed-size type per sub-branch gives the rows of what
    reading the sub-branches one by one gives. *)
Theorem C33_fields_are_rows d sis b tvs :
  br_subs b <> [] ->
  Forall2 (fun s tv => exists k, fixed_size (fst tv) = Some k /\ fixed_baskets d sis k s /\ alone d sis (fst tv) s (snd tv)) (br_subs b) tvs ->
  get_basket d sis (read_fields (map fst tvs)) b = Ok (value_rows (map snd tvs)).
Proof.
  intros N F.
  assert (P : exists its, Forall2 (fun s chs => baskets_buffer d sis (as_base s) = Ok chs /\ chs <> [] /\ Forall full_chunk chs) (br_subs b) its /\
      Forall2 (fun chs tv => Forall2 (parses (unmarshal (fst tv))) (entries chs) (snd tv)) its tvs).
  { clear N. induction F as [|s [t vs] subs tvs (k & H1 & H2 & H3) _ (its & I1 & I2)]; [exists []; split; constructor|].
    destruct (alone_parses d sis t k s vs H1 H2 H3) as (chs & B & NE & FC & PS). exists (chs :: its). split; constructor; auto. }
  destruct P as (its & P1 & P2). rewrite (C33_entries_are_put_together d sis _ b its N P1). apply zip_values.
  - clear - P2. induction P2 as [|c [t vs] its tvs H _ IH]; cbn [map combine]; constructor; auto.
  - rewrite !map_length. clear - P2. induction P2; cbn; auto.
  - inversion P1; subst; [congruence|discriminate].
Qed.

(** Two branches of a file written by the library, with three entries of four bytes and
    one entry of one byte in their baskets.  Listing a basket several times gives
    branches whose baskets begin and end at different entries. *)
Definition disk0 : bytes := Eval vm_compute in f_disk sample_file.
Definition opened0 : res file := Eval vm_compute in open_file disk0.
Definition trees0 : list (res robj) := Eval vm_compute in
  match opened0 with Ok f => map (key_object disk0) (d_keys (f_dir f)) | _ => [] end.
Definition branches0 : list branch := Eval vm_compute in
  flat_map (fun o => match o with Ok (OTree t) => t_branches t | _ => [] end) trees0.
Definition again (n : nat) (b : branch) : branch :=
  let '(Br top c e subs ls bks) := b in
  Br top (mkBC (b_named c) (b_fill c) (b_compress c) (b_bsize c) (b_eol c) (b_wb c) (b_entrynum c) (b_iobits c) (b_offset c)
    (b_maxb c) (b_split c) (b_entries c) (b_first c) (b_tot c) (b_zip c) (concat (repeat (b_bytes c) n)) (b_entry c)
    (concat (repeat (b_seek c) n)) (b_fname c)) e subs ls bks.
Definition parent (subs : list branch) : branch := Br true (ccore (bs "p") (TPrim I32) 0 0 0 0 [] [] []) None subs [] [].
Definition parent0 : branch := Eval vm_compute in
  match branches0 with [x; v; s; a; y] => parent [again 2 x; again 4 y] | _ => parent [] end.
Definition chunks0 : list (list chunk) := Eval vm_compute in
  map (fun s => match baskets_buffer disk0 [] (as_base s) with Ok c => c | _ => [] end) (br_subs parent0).
Definition columns0 : list (ty * list val) :=
  [(TPrim I32, map VInt [1; -2; 3; 1; -2; 3]); (TPrim PBool, repeat (VInt 1) 4)].
Example fields_are_rows0 : br_subs parent0 <> [] /\
  Forall2 (fun s tv => exists k, fixed_size (fst tv) = Some k /\ fixed_baskets disk0 [] k s /\ alone disk0 [] (fst tv) s (snd tv))
    (br_subs parent0) columns0.
Proof.
  split; [discriminate|]. constructor; [|constructor; [|constructor]]; eexists; (split; [reflexivity|]).
  - split; [split; [reflexivity|split; [cbn; lia|]]|vm_compute; reflexivity].
    exists (nth 0 chunks0 []). split; [vm_compute; reflexivity|]. split; [discriminate|].
    unfold chunks0; cbn [nth]. repeat (apply Forall_cons; [do 2 eexists; (split; [reflexivity|split; [lia|vm_compute; discriminate]])|]). apply Forall_nil.
  - split; [split; [reflexivity|split; [cbn; lia|]]|vm_compute; reflexivity].
    exists (nth 1 chunks0 []). split; [vm_compute; reflexivity|]. split; [discriminate|].
    unfold chunks0; cbn [nth]. repeat (apply Forall_cons; [do 2 eexists; (split; [reflexivity|split; [lia|vm_compute; discriminate]])|]). apply Forall_nil.
Qed.
Example rows0 : get_basket disk0 [] (read_fields [TPrim I32; TPrim PBool]) parent0 =
  Ok (map (fun z => [VInt z; VInt 1]) [1; -2; 3; 1]).
Proof. exact (C33_fields_are_rows _ _ _ _ (proj1 fields_are_rows0) (proj2 fields_are_rows0)). Qed.

(** A sub-branch without baskets must not be there: with one, the branch is not empty
    although a column is, ... *)
Theorem C33_empty_sub_branch_refuted :
  zip_all (fun e => Ok e) [[]; [Regular 1 1 [7]]] = Ok [[7]] /\ rows (map entries [[]; [Regular 1 1 [7]]]) = [] /\
(** ... and a second basket of the other is lost. *)
  zip_all (fun e => Ok e) [[]; [Regular 1 1 [7]; Regular 1 1 [8]]] = Ok [[7]] /\
  zip_all (fun e => Ok e) [[Regular 1 1 [7]; Regular 1 1 [8]]; []] = Ok [[7]; [8]].
Proof. vm_compute. repeat split. Qed.

(** The size of an entry that is recorded for a branch of arrays is that of one element.
    Such a sub-branch does not meet the hypothesis, and what is put together is not its
    entries: here an array of two bytes, [5; 6], of which only the first byte is taken. *)
Definition array_parent0 : branch := Eval vm_compute in
  match branches0 with [x; v; s; a; y] => parent [a; x] | _ => parent [] end.
Theorem C33_array_sub_branch_refuted :
  (exists a x, br_subs array_parent0 = [a; x] /\
    alone disk0 [] (TArr 2 (TPrim U8)) a [VList [VInt 5; VInt 6]] /\ alone disk0 [] (TPrim I32) x [VInt 1; VInt (-2); VInt 3]) /\
  get_basket disk0 [] (read_fields [TArr 2 (TPrim U8); TPrim I32]) array_parent0 = Panic /\
  get_basket disk0 [] (extract 5) array_parent0 = Ok [[5; 0; 0; 0; 1]].
Proof. split; [do 2 eexists; split; [reflexivity|]|]; vm_compute; repeat split. Qed.

(** ** C34: slices *)

(** An entry of a variable-size array is an optional header followed by its elements.
    Read as a slice it gives all of them and nothing else. *)
Theorem C34_slices_take_the_whole_entry t k h hd vs ws :
  fixed_size t = Some k -> 0 < k -> entry_header h hd -> Forall (has_type t) vs ->
  Forall2 (fun v w => appends (marshal t v) w) vs ws ->
  rrun 0 (set_skip_header (Some h) ;;; unmarshal_slice (unmarshal t)) (hd ++ concat ws) = Ok vs.
Proof.
  intros F K H T W. assert (T' : Forall (wt t) vs) by (eapply Forall_impl; [|exact T]; intros; now apply has_type_wt).
  replace (concat ws) with (flat_map (enc t) vs); [now apply (slice_entry t k)|].
  clear - W T'. induction W as [|v w vs ws A _ IH]; [reflexivity|]. inversion T'; subst. cbn [flat_map concat]. rewrite IH by assumption.
  f_equal. destruct (A (mkW [] 0 [] [])) as (x & E). destruct (writes_appends _ _ (writes_marshal t v ltac:(assumption)) (mkW [] 0 [] [])) as (y & E').
  rewrite E in E'. injection E' as _ E'. now symmetry.
Qed.

(** The same for a branch: every entry of every basket. *)
Theorem C34_branches_of_slices d sis t k b name cls h vsss :
  fixed_size t = Some k -> 0 < k -> br_subs b = [] ->
  item_type_name sis b = Ok name -> In cls (r_classes t) -> name = cls ++ bs "[]" ->
  (exists chs, baskets_buffer d sis b = Ok chs /\
    Forall2 (fun c vss => exists n pieces, c = Irregular n pieces h /\
      Forall2 (fun p vs => Forall (has_type t) vs /\ exists hd ws, p = hd ++ concat ws /\ entry_header h hd /\
                 Forall2 (fun v w => appends (marshal t v) w) vs ws) pieces vss) chs vsss) ->
  as_iter_slice d sis t b = Ok (concat vsss).
Proof.
  intros F K S N I -> (chs & B & C). unfold as_iter_slice. rewrite N. cbn [rbind].
  replace (existsb (beqb (cls ++ bs "[]")) (slice_classes t)) with true.
  2:{ symmetry. apply existsb_exists. exists (cls ++ bs "[]"). split; [|now apply beqb_eq]. unfold slice_classes.
      apply (in_map (fun c => c ++ bs "[]")), I. }
  unfold get_basket. rewrite S, B. cbn [rbind].
  assert (E : res_map (read_chunk (unmarshal_slice (unmarshal t))) chs = Ok vsss); [|now rewrite E].
  clear B. induction C as [|c vss chs vsss (n & pieces & -> & P) _ IH]; [reflexivity|]. cbn [res_map].
  assert (E : read_chunk (unmarshal_slice (unmarshal t)) (Irregular n pieces h) = Ok vss); [|now rewrite E; cbn [rbind]; rewrite IH].
  cbn [read_chunk]. clear IH. induction P as [|p vs pieces vss (T & hd & ws & -> & EH & W) _ IH]; [reflexivity|]. cbn [res_map].
  rewrite (C34_slices_take_the_whole_entry t k h hd vs ws F K EH T W). cbn [unwrap rbind]. now rewrite IH.
Qed.

(** Without a header, and with one of ten bytes. *)
Example entry_header0 : entry_header 0 [] /\ entry_header 10 (64 :: repeat 0 9).
Proof. split; (split; [reflexivity|]); [left; lia|right; eexists; reflexivity]. Qed.
Example slice0 : rrun 0 (set_skip_header (Some 10) ;;; unmarshal_slice (unmarshal (TPrim I16)))
  ((64 :: repeat 0 9) ++ [0; 1; 255; 255; 1; 0]) = Ok [VInt 1; VInt (-1); VInt 256].
Proof. vm_compute. reflexivity. Qed.
(** An entry that does not end with an element is not accepted. *)
Example slice_cut0 : rrun 0 (set_skip_header (Some 0) ;;; unmarshal_slice (unmarshal (TPrim I16))) [0; 1; 255] = Panic.
Proof. vm_compute. reflexivity. Qed.

(** The basket of the vector column of the sample file, read by a branch that takes its
    entries for arrays of bytes. *)
Definition byte_slices0 : branch := Eval vm_compute in
  match branches0 with
  | [x; v; s; a; y] => let '(Br top c e _ ls bks) := v in
     Br top c None [] [mkLeaf LKB (mkTL (new_named (bs "v") (bs "v[n]")) 1 1 0 false true) 0 0] bks
  | _ => parent []
  end.
Definition pieces0 : list bytes :=
  [[64; 0; 0; 22; 0; 9; 0; 0; 0; 2; 0; 0; 0; 0; 0; 0; 0; 7; 0; 0; 0; 0; 0; 0; 0; 9]; [64; 0; 0; 6; 0; 9; 0; 0; 0; 0]].
Example byte_slices_read : as_iter_slice disk0 [] (TPrim U8) byte_slices0 = Ok (concat [map (map VInt) pieces0]).
Proof.
  apply (C34_branches_of_slices disk0 [] (TPrim U8) 1 byte_slices0 (bs "uint8_t[]") (bs "uint8_t") 0);
    [reflexivity|lia|reflexivity|vm_compute; reflexivity|vm_compute; auto|reflexivity|].
  exists [Irregular 2 pieces0 0]. split; [vm_compute; reflexivity|]. constructor; [|constructor]. exists 2, pieces0. split; [reflexivity|].
  assert (B : Forall (Forall (fun z => 0 <= z < 256)) pieces0) by (repeat constructor; vm_compute; intuition discriminate).
  induction B as [|p l H _ IH]; cbn [map]; constructor; [|exact IH]. split.
  - induction H as [|z r Hz _ IHr]; cbn [map]; constructor; [|exact IHr]. constructor. unfold scalar. change (fst (scalar_range U8)) with 0. change (snd (scalar_range U8)) with 255. lia.
  - exists [], (map (fun z => [z]) p). split; [cbn [app]; clear; induction p as [|z r IHr]; cbn; congruence|]. split; [split; [reflexivity|left; lia]|].
    induction H as [|z r Hz _ IHr]; cbn [map]; constructor; [|exact IHr]. apply writes_appends.
    replace [z] with (enc (TPrim U8) (VInt z)); [apply writes_marshal, has_type_wt; constructor; unfold scalar; change (fst (scalar_range U8)) with 0; change (snd (scalar_range U8)) with 255; lia|].
    cbn [enc prim_size be]. now rewrite Z.pow_0_r, Z.div_1_r, Z.mod_small by lia.
Qed.
