(** Writers of leaves, branches, trees and streamer infos, and their round trips
    through the readers of [RObj.v]. *)
From Verif Require Export RObj.

Lemma roa_nil n : rt 4 write_object_nil (roa n) None.
Proof. apply rt_nil. Qed.

(** ** Leaves *)
Definition tleaf_ok (t : tleaf) : Prop :=
  named_ok (tl_named t) /\ is_i32 (tl_len t) /\ is_i32 (tl_etype t) /\ is_i32 (tl_offset t).
Definition tleaf_seen (t : tleaf) : tleaf :=
  mkTL (named_seen (tl_named t)) (if tl_len t =? 0 then 1 else tl_len t) (tl_etype t) (tl_offset t)
       (tl_hasrange t) (tl_unsigned t).

Lemma tleaf_sim n t : tleaf_ok t -> sim [] [] (tleaf_marshal t) (tleaf_unmarshal (roa n)) (tleaf_seen t).
Proof.
  destruct t as [nm len ety off hr un]. intros (Hn & Hl & He & Ho).
  cbn [tl_named tl_len tl_etype tl_offset] in *.
  unfold tleaf_marshal, tleaf_unmarshal, tleaf_seen. cbn [tl_named tl_len tl_etype tl_offset tl_hasrange tl_unsigned].
  apply sim_lm1, sim0_sim, sim_header; [rt_side|]. intros hp hl. cbn [h_vers].
  apply (sim_gate _ _ _ _ _ _ tt); [reflexivity|].
  eapply sim_seq0; [now apply named_sim|]. cbv beta.
  sim_step. sim_step. sim_step. sim_step. sim_step.
  eapply sim_last; [eapply sim_rt; apply roa_nil|]. cbv beta. reflexivity.
Qed.

Definition leaf_ok (l : leaf) : Prop :=
  lf_kind l <> LKBase /\ tleaf_ok (lf_t l) /\ bound_ok (lf_kind l) (lf_a l) /\ bound_ok (lf_kind l) (lf_b l).
Definition leaf_seen (l : leaf) : leaf := mkLeaf (lf_kind l) (tleaf_seen (lf_t l)) (lf_a l) (lf_b l).

(** Bytes of the two bounds of a leaf. *)
Definition bound_len (k : lkind) : Z :=
  match k with
  | LKBase => 0 | LKElement | LKI | LKC | LKF => 4 | LKS => 2 | LKD | LKL => 8 | LKB | LKO => 1
  end.

Lemma rt_bound k z : bound_ok k z -> rt (bound_len k) (write_bound k z) (read_bound k) z.
Proof.
  intros H; destruct k; cbn in H |- *; try (rt_atom; fail).
  - subst. apply rt_ret.
  - eapply rt_last; [apply rt_bool|]. destruct H as [->| ->]; apply rt_ret.
Qed.

Lemma leaf_sim n l : leaf_ok l ->
  sim [] [] (leaf_marshal l) (leaf_unmarshal (roa n) (lf_kind l)) (leaf_seen l).
Proof.
  destruct l as [k t a b]. intros (Hk & Ht & Ha & Hb). cbn [lf_kind lf_t lf_a lf_b] in *.
  unfold leaf_marshal, leaf_unmarshal, leaf_seen; cbn [lf_kind lf_t lf_a lf_b].
  destruct k; try congruence;
  (apply sim_lm1, sim0_sim, sim_header; [rt_side|]; intros hp hl; cbn [h_vers];
   apply (sim_gate _ _ _ _ _ _ tt); [reflexivity|];
   eapply sim_seq0; [now apply tleaf_sim|]; cbv beta;
   eapply sim_seq_rt; [apply rt_bound; exact Ha|]; cbv beta;
   eapply sim_last; [eapply sim_rt; apply rt_bound; exact Hb|reflexivity]).
Qed.

Lemma find_leaf k : find (fun k' => beqb (leaf_class k) (leaf_class k')) leaf_kinds = Some k.
Proof. destruct k; reflexivity. Qed.

Lemma um_leaf n k : um (S n) (leaf_class k) = (l <- leaf_unmarshal (roa n) k ;; ret (OLeaf l)).
Proof. destruct k; reflexivity. Qed.

Lemma um_leaf_sim n l : leaf_ok l ->
  sim [] [] (leaf_marshal l) (um (S n) (leaf_class (lf_kind l))) (OLeaf (leaf_seen l)).
Proof. intros H. rewrite um_leaf. eapply sim_last; [apply leaf_sim; exact H|reflexivity]. Qed.

Lemma leaf_class_cname k : cname_ok (leaf_class k) /\ known (leaf_class k) = true.
Proof.
  destruct k; (split; [split; [reflexivity|split; [reflexivity|rewrite zlen_def; vm_compute; congruence]]|reflexivity]).
Qed.

(** ** Branches *)

(** A branch as the writer holds it: rtree/branch/wbranch.rs 24-38, a [Branch]
    whose leaves have addresses.  Sub-branches and baskets are always empty on
    this side ([unimplemented!] otherwise, tbranch.rs 715, 735). *)
Record wbr := mkWBr { wb_core : bcore; wb_elem : option belem; wb_leaves : list (Z * leaf) }.

Definition wb_class (b : wbr) : bytes :=
  match wb_elem b with None => bs "TBranch" | Some _ => bs "TBranchElement" end.

(** A leaf as an object of a list, with its address *)
Definition leaf_item (al : Z * leaf) : W unit :=
  write_object_any (leaf_class (lf_kind (snd al))) (fst al) (leaf_marshal (snd al)) ;;; ret tt.

(** rtree/branch/tbranch.rs 20 [DEFAULT_MAX_BASKETS], and [marshal]: places in the basket tables *)
Definition max_baskets (c : bcore) : Z := if b_wb c + 1 <? 10 then 10 else b_wb c + 1.

(** The slice [v[0..n]] followed by zeros up to [m] entries; out of bounds is a
    panic: tbranch.rs 746-799 *)
Definition write_padded (wr : Z -> W unit) (v : list Z) (n m : Z) : W unit :=
  if (n <? 0) || (zlen v <? n) then panic
  else write_i8 1 ;;; iterM wr (firstn (Z.to_nat n) v) ;;; iterM wr (repeat 0 (Z.to_nat (m - n))).

(** tbranch.rs 657-806 *)
Definition tbranch_marshal (c : bcore) (leaves : list (Z * leaf)) : W Z :=
  len_minus_1 ;;;
  beg <- gets wpos ;;
  let m := max_baskets c in
  with_header 13
    (named_marshal (b_named c) ;;;
     attfill_marshal (b_fill c) ;;;
     write_i32 (b_compress c) ;;;
     write_i32 (b_bsize c) ;;;
     write_i32 (b_eol c) ;;;
     write_i32 (b_wb c) ;;;
     write_i64 (b_entrynum c) ;;;
     iobits_marshal (b_iobits c) ;;;
     write_i32 (b_offset c) ;;;
     write_i32 m ;;;
     write_i32 (b_split c) ;;;
     write_i64 (b_entries c) ;;;
     write_i64 (b_first c) ;;;
     write_i64 (b_tot c) ;;;
     write_i64 (b_zip c) ;;;
     objarray_marshal None [] ;;;
     objarray_marshal None (map leaf_item leaves) ;;;
     objarray_marshal None [] ;;;
     write_padded write_i32 (b_bytes c) (b_wb c) m ;;;
     write_padded write_i64 (b_entry c) (b_wb c + 1) m ;;;
     write_padded write_i64 (b_seek c) (b_wb c) m ;;;
     write_string (b_fname c)) ;;;
  e <- gets wpos ;;
  ret (e - beg).

(** tbranch_element.rs 509-540; [clsver as u16] *)
Definition wbr_marshal (b : wbr) : W Z :=
  match wb_elem b with
  | None => tbranch_marshal (wb_core b) (wb_leaves b)
  | Some e =>
      beg <- gets wpos ;;
      with_header 10
        (tbranch_marshal (wb_core b) (wb_leaves b) ;;;
         write_string (be_class e) ;;;
         write_string (be_parent e) ;;;
         write_string (be_clones e) ;;;
         write_i32 (be_chksum e) ;;;
         write_u16 (to_u16 (be_clsver e)) ;;;
         write_i32 (be_id e) ;;;
         write_i32 (be_btype e) ;;;
         write_i32 (be_stype e) ;;;
         write_i32 (be_max e) ;;;
         write_object_nil ;;;
         write_object_nil) ;;;
      en <- gets wpos ;;
      ret (en - beg)
  end.

(** What the format can represent. *)
Definition bcore_ok (c : bcore) : Prop :=
  named_ok (b_named c) /\ attfill_ok (b_fill c) /\ is_i32 (b_compress c) /\ is_i32 (b_bsize c) /\
  is_i32 (b_eol c) /\ 0 <= b_wb c < 2147483646 /\ is_i64 (b_entrynum c) /\ is_u8 (b_iobits c) /\
  is_i32 (b_offset c) /\ is_i32 (b_split c) /\ is_i64 (b_entries c) /\ is_i64 (b_first c) /\
  is_i64 (b_tot c) /\ is_i64 (b_zip c) /\
  zlen (b_bytes c) = b_wb c /\ Forall is_i32 (b_bytes c) /\
  zlen (b_entry c) = b_wb c + 1 /\ Forall is_i64 (b_entry c) /\
  zlen (b_seek c) = b_wb c /\ Forall is_i64 (b_seek c) /\ str_ok (b_fname c).

Definition bcore_seen (c : bcore) : bcore :=
  mkBC (named_seen (b_named c)) (b_fill c) (b_compress c) (b_bsize c) (b_eol c) (b_wb c)
    (b_entrynum c) (b_iobits c) (b_offset c) (max_baskets c) (b_split c) (b_entries c) (b_first c)
    (b_tot c) (b_zip c) (b_bytes c) (b_entry c) (b_seek c) (b_fname c).

Definition belem_ok (e : belem) : Prop :=
  str_ok (be_class e) /\ str_ok (be_parent e) /\ str_ok (be_clones e) /\ is_i32 (be_chksum e) /\
  is_i16 (be_clsver e) /\ is_i32 (be_id e) /\ is_i32 (be_btype e) /\ is_i32 (be_stype e) /\ is_i32 (be_max e).

(** Model only: addresses. *)
Definition wbr_addrs (b : wbr) : list Z := map fst (wb_leaves b).

Definition wbr_ok (b : wbr) : Prop :=
  bcore_ok (wb_core b) /\ (forall e, wb_elem b = Some e -> belem_ok e) /\
  Forall (fun al => leaf_ok (snd al)) (wb_leaves b) /\ NoDup (wbr_addrs b) /\
  zlen (wb_leaves b) < 2 ^ 31.

Definition wbr_seen (b : wbr) : branch :=
  Br false (bcore_seen (wb_core b)) (wb_elem b) [] (map (fun al => leaf_seen (snd al)) (wb_leaves b)) [].

Lemma objarray_nil_sim n : sim [] [] (objarray_marshal None []) (objarray_unmarshal (roa n)) (Some [], []).
Proof.
  apply sim0_sim. apply (objarray_sim [] [] None [] (roa n) []).
  - rewrite zlen_nil; lia.
  - discriminate.
  - apply sim_ret.
Qed.

Lemma sim_wx {X V} P B A (wm wm' : W X) (rm : R V) v :
  (forall s, wm' s = wm s) -> simg P B A wm rm v -> simg P B A wm' rm v.
Proof. intros E H. eapply sim_wext; eauto. Qed.

Lemma iterM_id_map {T} (f : T -> W unit) (l : list T) s : iterM (fun m => m) (map f l) s = iterM f l s.
Proof. apply (iterM_map f (fun m => m)). Qed.

Lemma flat_map_single {T} (f : T -> Z) l : flat_map (fun t => [f t]) l = map f l.
Proof. induction l; cbn; congruence. Qed.

Lemma leaves_sim n (ls : list (Z * leaf)) :
  Forall (fun al => leaf_ok (snd al)) ls -> NoDup (map fst ls) -> zlen ls < 2 ^ 31 ->
  sim [] (map fst ls) (objarray_marshal None (map leaf_item ls)) (objarray_unmarshal (roa (S n)))
    (Some [], map (fun al => OLeaf (leaf_seen (snd al))) ls).
Proof.
  intros Hok ND Hl.
  assert (E : map (fun al => OLeaf (leaf_seen (snd al))) ls
              = cat_opts (map (fun al => Some (OLeaf (leaf_seen (snd al)))) ls)).
  { clear. induction ls as [|a ls IH]; [reflexivity|]. cbn [map cat_opts flat_map app]. f_equal. exact IH. }
  rewrite E. apply sim0_sim. apply (objarray_sim [] _ None (map leaf_item ls) (roa (S n))).
  - rewrite zlen_map. exact Hl.
  - discriminate.
  - eapply sim_wx; [intros s; apply iterM_id_map|]. rewrite map_length.
    rewrite <- (flat_map_single fst).
    apply (sim_list leaf_item (roa (S n)) (fun al => [fst al]) (fun al => Some (OLeaf (leaf_seen (snd al))))).
    + intros al Hal. unfold leaf_item. apply sim_unit_end.
      rewrite Forall_forall in Hok. specialize (Hok al Hal).
      apply sim_object_any; try apply leaf_class_cname; try (intros []).
      apply um_leaf_sim. exact Hok.
    + rewrite flat_map_single. exact ND.
Qed.

Lemma mapM_leaves {T} (f : T -> leaf) (ls : list T) s :
  mapM (S := rbuf) as_leaf (map (fun al => OLeaf (f al)) ls) s = Ok (map f ls, s).
Proof.
  induction ls as [|al ls IH]; [reflexivity|]. cbn [map mapM as_leaf].
  unfold bind, ret in *. rewrite IH. reflexivity.
Qed.

Lemma rt_padded wr rd sz v n m :
  (forall z, In z v \/ z = 0 -> rt sz (wr z) rd z) ->
  0 <= n -> zlen v = n -> n <= m ->
  exists l, rt l (write_padded wr v n m)
    (read_i8 ;;; (bb <- read_vec m rd ;; slice_to bb n)) v.
Proof.
  intros H Hn Hl Hm. exists (1 + (sz * m)). unfold write_padded.
  replace ((n <? 0) || (zlen v <? n)) with false by (symmetry; lia).
  assert (Fn : firstn (Z.to_nat n) v = v).
  { rewrite firstn_all2; [reflexivity|]. rewrite zlen_def in Hl. lia. }
  rewrite Fn. eapply rt_seq; [apply rt_i8; rt_side| |reflexivity]. cbv beta.
  unfold read_vec. replace (m <? 0) with false by (symmetry; lia).
  set (k := Z.to_nat (m - n)).
  assert (Hlen : Z.to_nat m = length (v ++ repeat 0 k)).
  { rewrite app_length, repeat_length. unfold k. rewrite zlen_def in Hl. lia. }
  rewrite Hlen.
  eapply rt_last.
  - eapply rt_len with (n := sz * zlen (v ++ repeat 0 k)).
    + eapply rt_wext; [eapply (rt_repeat wr rd sz)|].
      * intros z Hz. apply H. apply in_app_iff in Hz as [Hz|Hz]; [now left|right].
        apply repeat_spec in Hz. exact Hz.
      * intros s. generalize (repeat 0 k). intros zs. clear.
        revert s. induction v as [|a v IH]; intros s; [reflexivity|].
        cbn [iterM app]. unfold bind in *. destruct (wr a s) as [[? s1]| | | |]; auto.
    + f_equal. rewrite zlen_def, <- Hlen. lia.
  - unfold slice_to. rewrite zlen_app. pose proof (zlen_nonneg (repeat 0 k)).
    replace ((n <? 0) || (zlen v + zlen (repeat 0 k) <? n)) with false by (symmetry; lia).
    rewrite firstn_app. replace (Z.to_nat n - length v)%nat with 0%nat by (rewrite zlen_def in Hl; lia).
    rewrite Fn, firstn_O, app_nil_r. apply rt_ret.
Qed.

Lemma rt_padded_k {V} wr rd sz v n m (k : list Z -> R V) :
  (forall z, In z v \/ z = 0 -> rt sz (wr z) rd z) ->
  0 <= n -> zlen v = n -> n <= m ->
  forall B A Y (wk : W Y) u,
  sim B A wk (k v) u ->
  sim B A (write_padded wr v n m ;;; wk)
    (read_i8 ;;; (bb <- read_vec m rd ;; x <- slice_to bb n ;; k x)) u.
Proof.
  intros H Hn Hl Hm B A Y wk u Hk. destruct (rt_padded wr rd sz v n m H Hn Hl Hm) as [l Hr].
  eapply sim_rext; [eapply sim_seq_rt; [exact Hr|exact Hk]|].
  intros r. cbv beta. unfold bind. destruct (read_i8 r) as [[? ?]| | | |]; try reflexivity.
  destruct (read_vec m rd _) as [[? ?]| | | |]; reflexivity.
Qed.

Lemma tbranch_sim n c ls :
  bcore_ok c -> Forall (fun al => leaf_ok (snd al)) ls -> NoDup (map fst ls) -> zlen ls < 2 ^ 31 ->
  sim [] (map fst ls) (tbranch_marshal c ls) (tbranch_unmarshal (roa (S n)))
    (Br false (bcore_seen c) None [] (map (fun al => leaf_seen (snd al)) ls) []).
Proof.
  intros (Hn & Hf & H1 & H2 & H3 & Hwb & H4 & H5 & H6 & H7 & H8 & H9 & H10 & H11
          & Lb & Fb & Le & Fe & Ls & Fs & Hfn) Hls ND Hll.
  set (res := Br false _ _ _ _ _).
  assert (Hm : 10 <= max_baskets c /\ b_wb c + 1 <= max_baskets c /\ is_i32 (max_baskets c)).
  { unfold max_baskets. destruct (Z.ltb_spec (b_wb c + 1) 10); rt_side. }
  destruct Hm as (Hm1 & Hm2 & Hm3).
  unfold tbranch_marshal. apply sim_lm1.
  match goal with |- simg _ _ _ (bind _ (fun beg => (_ ;;; _))) _ _ => idtac end.
  match goal with |- simg _ _ _ (bind _ (fun beg => (?wh ;;; _))) ?rm _ =>
    assert (G : sim [] (map fst ls) wh rm res) end.
  2: { intros s P Ho HA HB. destruct (G s P Ho HA HB) as (x & s' & w & E & R).
       exists (wpos s' - wpos s), s', w. split; [|exact R].
       unfold gets at 1, bind at 1. rewrite (bind_Ok _ _ _ _ _ E). reflexivity. }
  unfold tbranch_unmarshal. apply sim0_sim, sim_header; [rt_side|]. intros hp hl. cbn [h_vers]. cbv zeta.
  apply (sim_gate _ _ _ _ _ _ tt); [reflexivity|].
  change (10 <=? 13) with true. change (13 <=? 13) with true. change (11 <=? 13) with true. cbv iota.
  eapply sim_seq0; [now apply named_sim|]. cbv beta.
  eapply sim_seq_rt; [now apply attfill_rt|]. cbv beta.
  assert (is_i32 (b_wb c)) by rt_side.
  do 5 sim_step.
  eapply sim_seq_rt; [now apply iobits_rt|]. cbv beta.
  do 7 sim_step.
  eapply sim_seq0; [apply objarray_nil_sim|]. cbv beta iota.
  apply (sim_gate _ _ _ _ _ _ []); [reflexivity|].
  rewrite <- (app_nil_r (map fst ls)).
  eapply sim_seq; [now apply leaves_sim| |intros a _ []]. cbv beta iota.
  eapply sim_rext.
  2: { intros r. unfold bind at 1. rewrite mapM_leaves. reflexivity. }
  cbv beta.
  eapply sim_seq0; [apply objarray_nil_sim|]. cbv beta iota.
  apply (sim_gate _ _ _ _ _ _ []); [reflexivity|].
  rewrite Forall_forall in Fb, Fe, Fs.
  apply (rt_padded_k write_i32 read_i32 4); try lia.
  { intros z [Hz| ->]; apply rt_i32; [auto|rt_side]. }
  apply (rt_padded_k write_i64 read_i64 8); try lia.
  { intros z [Hz| ->]; apply rt_i64; [auto|rt_side]. }
  apply (rt_padded_k write_i64 read_i64 8); try lia.
  { intros z [Hz| ->]; apply rt_i64; [auto|rt_side]. }
  eapply sim_last; [eapply sim_rt; now apply rt_string|]. reflexivity.
Qed.

Lemma wbr_sim n b : wbr_ok b ->
  sim [] (wbr_addrs b) (wbr_marshal b) (um (S (S n)) (wb_class b)) (OBranch (wbr_seen b)).
Proof.
  destruct b as [c e ls]. intros (Hc & He & Hl & ND & Hz). unfold wbr_addrs in *.
  cbn [wb_core wb_elem wb_leaves] in *.
  unfold wbr_marshal, wbr_seen, wb_class; cbn [wb_core wb_elem wb_leaves].
  pose proof (tbranch_sim n c ls Hc Hl ND Hz) as T.
  destruct e as [e|].
  - specialize (He e eq_refl). destruct e as [k1 k2 k3 z1 z2 z3 z4 z5 z6].
    destruct He as (G1 & G2 & G3 & G4 & G5 & G6 & G7 & G8 & G9).
    cbn [be_class be_parent be_clones be_chksum be_clsver be_id be_btype be_stype be_max] in *.
    change (um (S (S n)) (bs "TBranchElement"))
      with (b <- tbranchelement_unmarshal (roa (S n)) ;; ret (OBranch b)).
    eapply sim_last; [|reflexivity].
    match goal with |- simg _ _ _ (bind _ (fun beg => (?wh ;;; _))) ?rm ?v =>
      assert (G : sim [] (map fst ls) wh rm v) end.
    2: { intros s P Ho HA HB. destruct (G s P Ho HA HB) as (x & s' & w & E & R).
         exists (wpos s' - wpos s), s', w. split; [|exact R].
         unfold gets at 1, bind at 1. rewrite (bind_Ok _ _ _ _ _ E). reflexivity. }
    unfold tbranchelement_unmarshal. apply sim0_sim, sim_header; [rt_side|]. intros hp hl. cbn [h_vers]. cbv zeta.
    apply (sim_gate _ _ _ _ _ _ tt); [reflexivity|].
    change (1 <? 10) with true. change (10 <=? 10) with true. cbv iota.
    rewrite <- (app_nil_r (map fst ls)).
    eapply sim_seq; [exact T| |intros a _ []]. cbv beta iota.
    do 4 sim_step.
    eapply sim_seq_rt with (n := 2) (v := z2).
    { exists (be 2 z2). split; [apply zlen_be|]. split.
      - intros s. exists tt. unfold write_u16, write_int, put. do 3 f_equal.
        unfold to_u16, wrap_u. apply be_mod.
      - intros sk. apply reads_sint; [lia|exact G5]. }
    cbv beta. do 3 sim_step. apply sim_rassoc. sim_step. apply sim_rassoc.
    eapply sim_seq_rt; [apply roa_nil|]. cbv beta iota. apply sim_rassoc.
    apply (sim_gate _ _ _ _ _ _ tt); [reflexivity|]. apply sim_rassoc.
    eapply sim_last; [eapply sim_rt; apply roa_nil|]. reflexivity.
  - change (um (S (S n)) (bs "TBranch"))
      with (b <- tbranch_unmarshal (roa (S n)) ;; ret (OBranch b)).
    eapply sim_last; [exact T|reflexivity].
Qed.

(** ** Trees *)

Definition branch_item (ab : Z * wbr) : W unit :=
  write_object_any (wb_class (snd ab)) (fst ab) (wbr_marshal (snd ab)) ;;; ret tt.

Definition tree_leaves (bs' : list (Z * wbr)) : list (Z * leaf) := flat_map (fun ab => wb_leaves (snd ab)) bs'.

(** rtree/tree/writer.rs 184-284 *)
Definition tree_marshal (t : tree (Z * wbr)) : W Z :=
  with_header 20
    (named_marshal (t_named t) ;;;
     attline_marshal (t_line t) ;;;
     attfill_marshal (t_fill t) ;;;
     attmarker_marshal (t_marker t) ;;;
     write_i64 (t_entries t) ;;;
     write_i64 (t_tot t) ;;;
     write_i64 (t_zip t) ;;;
     write_i64 (t_saved t) ;;;
     write_i64 (t_flushed t) ;;;
     write_f64 (t_weight t) ;;;
     write_i32 (t_timer t) ;;;
     write_i32 (t_scan t) ;;;
     write_i32 (t_update t) ;;;
     write_i32 (t_deol t) ;;;
     write_i32 (zlen (t_ranges t)) ;;;
     write_i64 (t_maxentries t) ;;;
     write_i64 (t_maxloop t) ;;;
     write_i64 (t_maxvirt t) ;;;
     write_i64 (t_autosave t) ;;;
     write_i64 (t_autoflush t) ;;;
     write_i64 (t_estimate t) ;;;
     write_i8 0 ;;;
     iterM write_i64 (t_ranges t) ;;;
     write_i8 0 ;;;
     iterM write_i64 (t_sizes t) ;;;
     iobits_marshal (t_iobits t) ;;;
     objarray_marshal None (map branch_item (t_branches t)) ;;;
     objarray_marshal None (map leaf_item (tree_leaves (t_branches t))) ;;;
     write_object_nil ;;;
     write_object_nil ;;;
     write_object_nil ;;;
     write_object_nil ;;;
     write_object_nil ;;;
     write_object_nil ;;;
     write_object_nil).

(** Model only: addresses. *)
Definition branch_addrs (ab : Z * wbr) : list Z := fst ab :: wbr_addrs (snd ab).
Definition tree_addrs (t : tree (Z * wbr)) : list Z := flat_map branch_addrs (t_branches t).

Definition tree_ok (t : tree (Z * wbr)) : Prop :=
  named_ok (t_named t) /\ attline_ok (t_line t) /\ attfill_ok (t_fill t) /\ attmarker_ok (t_marker t) /\
  is_i64 (t_entries t) /\ is_i64 (t_tot t) /\ is_i64 (t_zip t) /\ is_i64 (t_saved t) /\
  is_i64 (t_flushed t) /\ is_u64 (t_weight t) /\ is_i32 (t_timer t) /\ is_i32 (t_scan t) /\
  is_i32 (t_update t) /\ is_i32 (t_deol t) /\ is_i64 (t_maxentries t) /\ is_i64 (t_maxloop t) /\
  is_i64 (t_maxvirt t) /\ is_i64 (t_autosave t) /\ is_i64 (t_autoflush t) /\ is_i64 (t_estimate t) /\
  zlen (t_ranges t) < 2 ^ 31 /\ zlen (t_sizes t) = zlen (t_ranges t) /\
  Forall is_i64 (t_ranges t) /\ Forall is_i64 (t_sizes t) /\ is_u8 (t_iobits t) /\
  Forall (fun ab => wbr_ok (snd ab)) (t_branches t) /\ zlen (t_branches t) < 2 ^ 31 /\
  zlen (tree_leaves (t_branches t)) < 2 ^ 31 /\ NoDup (tree_addrs t).

Definition tree_seen (t : tree (Z * wbr)) : tree branch :=
  mkTree (named_seen (t_named t)) (t_line t) (t_fill t) (t_marker t) (t_entries t) (t_tot t) (t_zip t)
    (t_saved t) (t_flushed t) (t_weight t) (t_timer t) (t_scan t) (t_update t) (t_deol t)
    (t_maxentries t) (t_maxloop t) (t_maxvirt t) (t_autosave t) (t_autoflush t) (t_estimate t)
    (t_ranges t) (t_sizes t) (t_iobits t) (map (fun ab => set_top (wbr_seen (snd ab))) (t_branches t)).

Lemma wb_class_cname b : cname_ok (wb_class b) /\ known (wb_class b) = true.
Proof.
  unfold wb_class. destruct (wb_elem b);
  (split; [split; [reflexivity|split; [reflexivity|rewrite zlen_def; vm_compute; congruence]]|reflexivity]).
Qed.

Lemma nodup_flat_map {T} (f : T -> list Z) l t : NoDup (flat_map f l) -> In t l -> NoDup (f t).
Proof.
  induction l as [|x l IH]; intros ND []; cbn in ND.
  - subst. clear IH. induction (f t) as [|y r IHr]; [constructor|]. inversion ND; subst.
    constructor; [|auto]. intros Hy. apply H1, in_app_iff; now left.
  - apply IH; [|assumption]. clear -ND. induction (f x); auto. inversion ND; auto.
Qed.

Lemma cat_opts_some {T O} (f : T -> O) l : cat_opts (map (fun t => Some (f t)) l) = map f l.
Proof. induction l as [|a l IH]; [reflexivity|]. cbn [map cat_opts flat_map app]. f_equal. exact IH. Qed.
Lemma cat_opts_none {T O} (l : list T) : cat_opts (map (fun _ => @None O) l) = [].
Proof. induction l as [|a l IH]; [reflexivity|]. exact IH. Qed.

Lemma branches_sim n (l : list (Z * wbr)) :
  Forall (fun ab => wbr_ok (snd ab)) l -> NoDup (flat_map branch_addrs l) -> zlen l < 2 ^ 31 ->
  sim [] (flat_map branch_addrs l) (objarray_marshal None (map branch_item l))
    (objarray_unmarshal (roa (S (S n)))) (Some [], map (fun ab => OBranch (wbr_seen (snd ab))) l).
Proof.
  intros Hok ND Hl. rewrite <- (cat_opts_some (fun ab => OBranch (wbr_seen (snd ab)))). apply sim0_sim.
  apply (objarray_sim [] _ None (map branch_item l) (roa (S (S n)))).
  - rewrite zlen_map. exact Hl.
  - discriminate.
  - eapply sim_wx; [intros s; apply iterM_id_map|]. rewrite map_length.
    apply (sim_list branch_item (roa (S (S n))) branch_addrs (fun ab => Some (OBranch (wbr_seen (snd ab))))).
    + intros ab Hab. unfold branch_item. apply sim_unit_end.
      rewrite Forall_forall in Hok. specialize (Hok ab Hab).
      pose proof (nodup_flat_map _ _ _ ND Hab) as N1. unfold branch_addrs in N1.
      inversion N1; subst.
      apply sim_object_any; try apply wb_class_cname; auto.
      apply wbr_sim. exact Hok.
    + exact ND.
Qed.

Lemma leaf_refs_sim n (ls : list (Z * leaf)) : zlen ls < 2 ^ 31 ->
  sim (map fst ls) [] (objarray_marshal None (map leaf_item ls)) (objarray_unmarshal (roa n)) (Some [], []).
Proof.
  intros Hl. rewrite <- (@cat_opts_none _ robj ls). apply sim0_sim.
  apply (objarray_sim (map fst ls) [] None (map leaf_item ls) (roa n)).
  - rewrite zlen_map. exact Hl.
  - discriminate.
  - eapply sim_wx; [intros s; apply iterM_id_map|]. rewrite map_length.
    rewrite <- (flat_map_single fst).
    apply (sim_list_refs leaf_item (roa n) (fun al => [fst al]) (fun _ => None)).
    intros al _. unfold leaf_item. apply sim_unit_end. apply sim_object_ref.
Qed.

Lemma mapM_branches {T} (f : T -> branch) (ls : list T) s :
  mapM (S := rbuf) as_branch (map (fun al => OBranch (f al)) ls) s = Ok (map f ls, s).
Proof.
  induction ls as [|al ls IH]; [reflexivity|]. cbn [map mapM as_branch].
  unfold bind, ret in *. rewrite IH. reflexivity.
Qed.

Lemma rt_array_i64 l : Forall is_i64 l ->
  rt (8 * zlen l) (iterM write_i64 l) (read_array_i64 (length l)) l.
Proof. intros H. apply rt_repeat. rewrite Forall_forall in H. intros; apply rt_i64; auto. Qed.

Lemma tree_leaves_addrs l a : In a (map fst (tree_leaves l)) -> In a (flat_map branch_addrs l).
Proof.
  unfold tree_leaves. rewrite in_map_iff. intros (x & <- & Hx). apply in_flat_map in Hx as (ab & Hab & Hx).
  apply in_flat_map. exists ab. split; [exact Hab|]. right. unfold wbr_addrs. now apply in_map.
Qed.

Lemma tree_sim n t : tree_ok t ->
  sim0 [] (tree_addrs t) (tree_marshal t) (um (S (S (S n))) (bs "TTree")) (OTree (tree_seen t)).
Proof.
  intros (Hn & H1 & H2 & H3 & H4 & H5 & H6 & H7 & H8 & H9 & H10 & H11 & H12 & H13 & H14 & H15 & H16 & H17
          & H18 & H19 & H20 & H21 & H22 & H23 & H24 & Hb & Hbl & Hll & ND).
  change (um (S (S (S n))) (bs "TTree")) with (t <- tree_unmarshal (roa (S (S n))) ;; ret (OTree t)).
  eapply sim_last; [|reflexivity].
  unfold tree_marshal, tree_unmarshal. apply sim_header; [rt_side|]. intros hp hl. cbn [h_vers]. cbv zeta.
  apply (sim_gate _ _ _ _ _ _ tt); [reflexivity|].
  eapply sim_seq0; [now apply named_sim|]. cbv beta.
  eapply sim_seq_rt; [now apply attline_rt|]. cbv beta.
  eapply sim_seq_rt; [now apply attfill_rt|]. cbv beta.
  eapply sim_seq_rt; [now apply attmarker_rt|]. cbv beta.
  apply (sim_gate _ _ _ _ _ _ tt); [reflexivity|].
  change (5 <? 20) with true. change (18 <=? 20) with true. change (16 <=? 20) with true.
  change (17 <=? 20) with true. change (19 <=? 20) with true. change (20 <=? 20) with true. cbv iota.
  pose proof (zlen_nonneg (t_ranges t)) as Hz.
  do 10 sim_step. sim_step. do 6 sim_step.
  apply sim_rassoc.
  replace (zlen (t_ranges t) <? 0) with false by (symmetry; lia).
  apply (sim_gate _ _ _ _ _ _ tt); [reflexivity|]. apply sim_rassoc.
  eapply sim_seq_rt; [apply (rt_i8 0); rt_side|]. cbv beta. apply sim_rassoc.
  rewrite zlen_to_nat.
  eapply sim_seq_rt; [now apply rt_array_i64|]. cbv beta. apply sim_rassoc.
  eapply sim_seq_rt; [apply (rt_i8 0); rt_side|]. cbv beta. apply sim_rassoc.
  replace (length (t_ranges t)) with (length (t_sizes t)).
  2: { rewrite !zlen_def in H21. lia. }
  eapply sim_seq_rt; [now apply rt_array_i64|]. cbv beta.
  apply (sim_gate _ _ _ _ _ _ (t_ranges t, t_sizes t)); [reflexivity|]. cbv beta iota.
  eapply sim_seq_rt; [now apply iobits_rt|]. cbv beta.
  eapply sim_bind with (B1 := []) (A1 := tree_addrs t) (B2 := map fst (tree_leaves (t_branches t))) (A2 := []).
  { apply branches_sim; assumption. }
  2: apply incl_refl.
  2: { cbn [app]. intros a. apply tree_leaves_addrs. }
  2: { intros a; cbn; tauto. }
  2: { intros a _ []. }
  2: { intros a []. }
  intros _. cbv beta iota.
  eapply sim_rext.
  2: { intros r. unfold bind at 1. rewrite mapM_branches. reflexivity. }
  eapply sim_bind with (B1 := map fst (tree_leaves (t_branches t))) (A1 := []) (B2 := []) (A2 := []).
  { now apply leaf_refs_sim. }
  2: apply incl_refl.
  2: { intros a []. }
  2: { intros a; cbn; tauto. }
  2: { intros a []. }
  2: { intros a _ []. }
  intros _. cbv beta.
  do 3 (apply sim_rassoc; eapply sim_seq_rt; [apply roa_nil|]; cbv beta iota;
        apply (sim_gate _ _ _ _ _ _ tt); [reflexivity|]).
  do 3 (do 2 apply sim_rassoc; eapply sim_seq_rt; [apply roa_nil|]; cbv beta iota;
        apply (sim_gate _ _ _ _ _ _ tt); [reflexivity|]).
  apply sim_rassoc. eapply sim_last; [eapply sim_rt; apply roa_nil|]. cbv beta iota.
  unfold bind, ret. unfold tree_seen. rewrite map_map. reflexivity.
Qed.

(** ** Streamer infos *)

(** The elements and the element list are written with process-wide identifiers
    as addresses (rdict/mod.rs 207, 352).  Every clone draws fresh ones, so they
    are distinct; the model numbers them from [base]. *)
Fixpoint number {T} (base : Z) (l : list T) : list (Z * T) :=
  match l with [] => [] | x :: r => (base, x) :: number (base + 1) r end.

Definition streamer_item (is' : Z * streamer) : W unit :=
  write_object_any (s_class (snd is')) (fst is') (streamer_marshal (snd is')) ;;; ret tt.

(** rdict/mod.rs 175-212 (the list) and 320-359 (the info) *)
Definition sinfo_marshal (base : Z) (si : sinfo) : W Z :=
  len_minus_1 ;;;
  with_header 9
    (named_marshal (si_named si) ;;;
     write_u32 (si_chksum si) ;;;
     write_i32 (si_clsver si) ;;;
     write_object_any (bs "TObjArray") base
       (len_minus_1 ;;; objarray_marshal None (map streamer_item (number (base + 1) (si_elems si))))).

Definition sinfo_ok (si : sinfo) : Prop :=
  named_ok (si_named si) /\ is_u32 (si_chksum si) /\ is_i32 (si_clsver si) /\
  Forall streamer_ok (si_elems si) /\ zlen (si_elems si) < 2 ^ 31.

Definition sinfo_seen (si : sinfo) : sinfo :=
  mkSI (named_seen (si_named si)) (si_chksum si) (si_clsver si) (map streamer_seen (si_elems si)).

Lemma number_In {T} (l : list T) base x : In x (number base l) ->
  base <= fst x < base + zlen l /\ In (snd x) l.
Proof.
  revert base; induction l as [|a l IH]; intros base; [intros []|]. cbn [number]. rewrite zlen_cons.
  pose proof (zlen_nonneg l). intros [<-|H1]; cbn [fst snd]; [split; [lia|now left]|].
  apply IH in H1 as [? ?]. split; [lia|now right].
Qed.
Lemma number_fst_In {T} (l : list T) base a : In a (map fst (number base l)) -> base <= a < base + zlen l.
Proof. rewrite in_map_iff. intros (x & <- & Hx). now apply number_In in Hx. Qed.
Lemma number_nodup {T} (l : list T) base : NoDup (map fst (number base l)).
Proof.
  revert base; induction l as [|a l IH]; intros base; [constructor|]. cbn [number map fst].
  constructor; [|apply IH]. intros H. apply number_fst_In in H. lia.
Qed.
Lemma number_snd {T} (l : list T) base : map snd (number base l) = l.
Proof. revert base; induction l; intros; cbn; congruence. Qed.
Lemma number_len {T} (l : list T) base : zlen (number base l) = zlen l.
Proof. rewrite <- (zlen_map snd (number base l)), number_snd. reflexivity. Qed.

Lemma s_class_cname s : cname_ok (s_class s) /\ known (s_class s) = true.
Proof.
  destruct s;
  (split; [split; [reflexivity|split; [reflexivity|rewrite zlen_def; vm_compute; congruence]]|reflexivity]).
Qed.

Lemma um_streamer n s rm : streamer_unmarshal (s_class s) = Some rm ->
  um (S n) (s_class s) = (x <- rm ;; ret (OStreamer x)).
Proof. destruct s; cbn [s_class]; intros [= <-]; reflexivity. Qed.

Lemma mapM_streamers {T} (f : T -> streamer) (ls : list T) s :
  mapM (S := rbuf) as_streamer (map (fun al => OStreamer (f al)) ls) s = Ok (map f ls, s).
Proof.
  induction ls as [|al ls IH]; [reflexivity|]. cbn [map mapM as_streamer].
  unfold bind, ret in *. rewrite IH. reflexivity.
Qed.

Definition sinfo_addrs (base : Z) (si : sinfo) : list Z := base :: map fst (number (base + 1) (si_elems si)).

Lemma sinfo_sim n base si : sinfo_ok si ->
  sim [] (sinfo_addrs base si) (sinfo_marshal base si) (um (S (S (S n))) (bs "TStreamerInfo")) (OSInfo (sinfo_seen si)).
Proof.
  destruct si as [nm chk ver els]. intros (Hn & Hc & Hv & Hel & Hl).
  unfold sinfo_marshal, sinfo_addrs, sinfo_seen.
  cbn [si_named si_chksum si_clsver si_elems] in *.
  change (um (S (S (S n))) (bs "TStreamerInfo")) with (s <- sinfo_unmarshal (roa (S (S n))) ;; ret (OSInfo s)).
  eapply sim_last; [|reflexivity].
  unfold sinfo_unmarshal. apply sim_lm1, sim0_sim, sim_header; [rt_side|]. intros hp hl. cbn [h_vers].
  apply (sim_gate _ _ _ _ _ _ tt); [reflexivity|].
  eapply sim_seq0; [now apply named_sim|]. cbv beta.
  sim_step. sim_step.
  eapply sim_last'.
  - apply sim_object_any with (v := OArr (Some []) (map OStreamer (map streamer_seen els))).
    + split; [reflexivity|split; [reflexivity|rewrite zlen_def; vm_compute; congruence]].
    + reflexivity.
    + intros H. apply number_fst_In in H. lia.
    + intros [].
    + change (um (S (S n)) (bs "TObjArray")) with (' (n0, l) <- objarray_unmarshal (roa (S n)) ;; ret (OArr n0 l)).
      eapply sim_last with (v := (Some [], map OStreamer (map streamer_seen els))); [|reflexivity].
      apply sim_lm1, sim0_sim.
      rewrite map_map.
      replace (map (fun x => OStreamer (streamer_seen x)) els)
        with (cat_opts (map (fun ix => Some (OStreamer (streamer_seen (snd ix)))) (number (base + 1) els))).
      2: { rewrite cat_opts_some. rewrite <- (number_snd els (base + 1)) at 2. now rewrite map_map. }
      apply (objarray_sim [] _ None (map streamer_item (number (base + 1) els)) (roa (S n))).
      * rewrite zlen_map, number_len. exact Hl.
      * discriminate.
      * eapply sim_wx; [intros s; apply iterM_id_map|]. rewrite map_length.
        rewrite <- (flat_map_single fst).
        apply (sim_list streamer_item (roa (S n)) (fun ix => [fst ix])
                 (fun ix => Some (OStreamer (streamer_seen (snd ix))))).
        -- intros ix Hix. unfold streamer_item. apply sim_unit_end.
           apply number_In in Hix as [_ Hin]. rewrite Forall_forall in Hel. specialize (Hel _ Hin).
           destruct (streamer_sim _ Hel) as (rm & Erm & Srm).
           apply sim_object_any; try apply s_class_cname; try (intros []).
           rewrite (um_streamer n _ _ Erm). eapply sim_last; [exact Srm|reflexivity].
        -- rewrite flat_map_single. apply number_nodup.
  - intros r. cbv beta iota. unfold bind. rewrite (mapM_streamers (fun x => x)), map_id. reflexivity.
Qed.

(** The list of streamer infos as written by riofs/file.rs 632-650: each info
    with its own memory address.  The model numbers the addresses [-1, -2, ...],
    apart from the identifiers used inside. *)
Fixpoint place (addr base : Z) (l : list sinfo) : list (Z * Z * sinfo) :=
  match l with
  | [] => []
  | si :: r => (addr, base, si) :: place (addr - 1) (base + 1 + zlen (si_elems si)) r
  end.

Definition sinfo_item (p : Z * Z * sinfo) : W unit :=
  let '(addr, base, si) := p in
  write_object_any (bs "TStreamerInfo") addr (sinfo_marshal base si) ;;; ret tt.

(** riofs/file.rs 616-670 [write_streamer_info]: the list of infos *)
Definition sinfos_marshal (l : list sinfo) : W Z := list_marshal None (map sinfo_item (place (-1) 0 l)).

(** Model only: addresses. *)
Definition place_addrs (p : Z * Z * sinfo) : list Z := let '(addr, base, si) := p in addr :: sinfo_addrs base si.

Lemma place_bound l addr base x a : addr < 0 -> 0 <= base ->
  In x (place addr base l) -> In a (place_addrs x) -> a <= addr \/ base <= a.
Proof.
  revert addr base. induction l as [|si l IH]; intros addr base Ha Hb; [intros []|].
  cbn [place]. pose proof (zlen_nonneg (si_elems si)). intros [<-|Hin].
  - cbn [place_addrs]. unfold sinfo_addrs. intros [E|[E|H1]]; [lia|lia|].
    apply number_fst_In in H1. lia.
  - intros H1. destruct (IH (addr - 1) (base + 1 + zlen (si_elems si)) ltac:(lia) ltac:(lia) Hin H1); lia.
Qed.

Lemma NoDup_app_intro {T} (l m : list T) :
  NoDup l -> NoDup m -> (forall x, In x l -> ~ In x m) -> NoDup (l ++ m).
Proof.
  induction l as [|a l IH]; intros Hl Hm D; [exact Hm|]. inversion Hl; subst. cbn. constructor.
  - rewrite in_app_iff. intros [?|?]; [auto|]. apply (D a); [now left|assumption].
  - apply IH; auto. intros x Hx. apply D. now right.
Qed.

Lemma place_nodup l addr base : addr < 0 -> 0 <= base -> NoDup (flat_map place_addrs (place addr base l)).
Proof.
  revert addr base. induction l as [|si l IH]; intros addr base Ha Hb; [constructor|].
  cbn [place flat_map]. pose proof (zlen_nonneg (si_elems si)). apply NoDup_app_intro.
  - cbn [place_addrs]. constructor.
    + unfold sinfo_addrs. intros [E|H1]; [lia|]. apply number_fst_In in H1. lia.
    + unfold sinfo_addrs. constructor; [|apply number_nodup]. intros H1. apply number_fst_In in H1. lia.
  - apply IH; lia.
  - intros x Hx Hin. apply in_flat_map in Hin as (p & Hp & Hx').
    pose proof (place_bound _ (addr - 1) (base + 1 + zlen (si_elems si)) _ _ ltac:(lia) ltac:(lia) Hp Hx') as Hb'.
    cbn [place_addrs] in Hx. unfold sinfo_addrs in Hx. destruct Hx as [E|[E|Hx]]; [lia|lia|].
    apply number_fst_In in Hx. lia.
Qed.

Lemma place_snd l addr base : map snd (place addr base l) = l.
Proof. revert addr base; induction l; intros; cbn; congruence. Qed.

Definition sinfos_addrs (l : list sinfo) : list Z := flat_map place_addrs (place (-1) 0 l).

Lemma sinfos_sim n l : Forall sinfo_ok l -> zlen l < 2 ^ 31 ->
  sim0 [] (sinfos_addrs l) (sinfos_marshal l) (um (S (S (S (S n)))) (bs "TList"))
    (OList [] (map (fun si => OSInfo (sinfo_seen si)) l)).
Proof.
  intros Hok Hl.
  change (um (S (S (S (S n)))) (bs "TList")) with (' (n0, l0) <- list_unmarshal (roa (S (S (S n)))) ;; ret (OList n0 l0)).
  eapply sim_last with (v := ([], map (fun si => OSInfo (sinfo_seen si)) l)); [|reflexivity].
  unfold sinfos_marshal.
  replace (map (fun si => OSInfo (sinfo_seen si)) l)
    with (map (fun p => OSInfo (sinfo_seen (snd p))) (place (-1) 0 l)).
  2: { rewrite <- (place_snd l (-1) 0) at 2. now rewrite map_map. }
  apply (list_sim [] (sinfos_addrs l) None (map sinfo_item (place (-1) 0 l)) (roa (S (S (S n))))).
  - rewrite zlen_map, <- (zlen_map snd), place_snd. exact Hl.
  - discriminate.
  - eapply sim_wx; [intros s; apply (iterM_map sinfo_item (fun m => m ;;; write_string []))|].
    rewrite map_length.
    apply (sim_list (fun p => sinfo_item p ;;; write_string []) _ place_addrs (fun p => OSInfo (sinfo_seen (snd p)))).
    + intros [[addr base] si] Hin. cbn [sinfo_item place_addrs snd].
      assert (Hsi : sinfo_ok si).
      { rewrite Forall_forall in Hok. apply Hok. rewrite <- (place_snd l (-1) 0).
        apply (in_map snd) in Hin. exact Hin. }
      pose proof (nodup_flat_map _ _ _ (place_nodup l (-1) 0 ltac:(lia) ltac:(lia)) Hin) as N1.
      cbn [place_addrs] in N1. inversion N1; subst.
      rewrite <- (app_nil_r (addr :: sinfo_addrs base si)).
      eapply sim_seq; [apply sim_unit_end, sim_object_any; auto| |intros a _ []].
      * split; [reflexivity|split; [reflexivity|rewrite zlen_def; vm_compute; congruence]].
      * now apply sinfo_sim.
      * cbv beta iota. eapply sim_rt.
        eapply rt_last with (v := 0); [|change (0 <? 0) with false; apply rt_ret].
        exists [0]. split; [now rewrite zlen_def|]. split.
        -- exact (writes_string [] ltac:(rewrite zlen_nil; red; lia)).
        -- intros sk. apply (reads_uint 1 0 sk). red. change (256 ^ Z.of_nat 1) with 256. lia.
    + apply place_nodup; lia.
Qed.
