(** Upper bounds on what the writers append. *)
From Verif Require Export TreeFwd TreeFinal.

Definition wle {A} (n : Z) (m : W A) : Prop :=
  forall s x s', m s = Ok (x, s') -> zlen (wp s') <= zlen (wp s) + n.

Lemma wle_le {A} a b (m : W A) : wle a m -> a <= b -> wle b m.
Proof. intros H L s x s' E. specialize (H s x s' E). lia. Qed.
Lemma wle_bind {A B} a b (m : W A) (k : A -> W B) : wle a m -> (forall x, wle b (k x)) -> wle (a + b) (bind m k).
Proof.
  intros H1 H2 s y s' E. unfold bind in E. destruct (m s) as [[x s1]| | | |] eqn:E1; try discriminate.
  specialize (H1 _ _ _ E1). specialize (H2 _ _ _ _ E). lia.
Qed.
Lemma wle_ret {A} (x : A) : wle 0 (ret x).
Proof. intros s y s' E. injection E as <- <-. lia. Qed.
Lemma wle_gets {A} (g : wbuf -> A) : wle 0 (gets g).
Proof. intros s y s' E. injection E as <- <-. lia. Qed.
Lemma wle_put w : wle (zlen w) (put w).
Proof. intros s y s' E. injection E as <- <-. cbn [w_app w_set_p wp]. rewrite zlen_app. lia. Qed.
Lemma wle_int n z : wle (Z.of_nat n) (write_int n z).
Proof. eapply wle_le; [apply wle_put|]. rewrite zlen_be. lia. Qed.
Lemma wle_bool b : wle 1 (write_bool b).
Proof. apply (wle_int 1). Qed.
Lemma wle_nil : wle 4 write_object_nil.
Proof. apply (wle_int 4). Qed.
Lemma wle_string s : wle (zlen s + 5) (write_string s).
Proof.
  unfold write_string. pose proof (zlen_nonneg s). destruct (_ <? 255).
  - eapply wle_le; [apply wle_bind; [apply (wle_int 1)|]|].
    + intros _. destruct (0 <? _); [apply wle_put|eapply wle_le; [apply wle_ret|lia]].
    + lia.
  - eapply wle_le; [apply wle_bind; [apply (wle_int 1)|intros _; apply wle_bind; [apply (wle_int 4)|intros _; apply wle_put]]|]. lia.
Qed.
Lemma wle_lm1 : wle 0 len_minus_1.
Proof. intros s y s' E. unfold len_minus_1 in E. destruct (_ =? 0); [discriminate|]. injection E as <- <-. lia. Qed.
Lemma wle_in_place w p : wle 0 (write_in_place w p).
Proof.
  intros s y s' E. unfold write_in_place in E. destruct (_ && _) eqn:C; [|discriminate]. injection E as <- <-.
  apply andb_true_iff in C as [C1 C2]. apply Z.leb_le in C1, C2. cbn [w_set_p wp]. unfold patch.
  rewrite !zlen_def in *. rewrite !app_length, firstn_length, skipn_length. lia.
Qed.
Lemma wle_panic {A} : @wle A 0 panic.
Proof. intros s y s' E. discriminate. Qed.
Lemma wle_header {X} v n (m : W X) : wle n m -> wle (n + 6) (with_header v m).
Proof.
  intros H. unfold with_header, write_header, set_header.
  eapply wle_le; [apply wle_bind; [apply wle_bind; [apply wle_gets|intros p; apply wle_bind; [apply (wle_int 4)|intros _; apply wle_bind; [apply (wle_int 2)|intros _; apply wle_ret]]]|]|].
  - intros h. apply wle_bind; [exact H|]. intros _. apply wle_bind; [apply wle_gets|]. intros c. apply wle_bind; [apply wle_in_place|]. intros _. apply wle_ret.
  - lia.
Qed.
Lemma wle_modify g : (forall s, wp (g s) = wp s) -> wle 0 (modify g).
Proof. intros H s y s' E. injection E as <- <-. rewrite H. lia. Qed.
Lemma wle_any c a n (m : W Z) : 0 <= n -> wle n m -> wle (n + zlen c + 9) (write_object_any c a m).
Proof.
  intros Hn H. pose proof (zlen_nonneg c) as Zc. unfold write_object_any, write_class, write_cstring.
  eapply wle_le; [apply wle_bind; [apply wle_gets|intros b]|].
  - apply wle_bind; [apply wle_lm1|intros _]. apply wle_bind; [apply (wle_int 4)|intros _].
    apply wle_bind; [|intros bc; apply wle_bind; [apply wle_in_place|intros _; apply wle_bind; [apply wle_gets|intros e; apply wle_ret]]].
    apply wle_bind; [apply wle_lm1|intros _]. apply wle_bind; [apply wle_gets|intros st]. apply wle_bind; [apply wle_gets|intros s0].
    instantiate (1 := n + zlen c + 5).
    destruct (alookup Z.eqb _ _); [|destruct (alookup beqb _ _)].
    + eapply wle_le; [apply wle_bind; [apply (wle_int 4)|intros _; apply wle_bind; [apply wle_gets|intros ?; apply wle_ret]]|lia].
    + eapply wle_le; [apply wle_bind; [apply (wle_int 4)|intros _; apply wle_bind; [exact H|intros _; apply wle_bind; [apply wle_modify; reflexivity|
        intros _; apply wle_bind; [apply wle_gets|intros ?; apply wle_ret]]]]|lia].
    + eapply wle_le; [apply wle_bind; [apply (wle_int 4)|intros _; apply wle_bind; [apply wle_bind; [apply wle_put|intros _; apply (wle_int 1)]|intros _;
        apply wle_bind; [apply wle_modify; reflexivity|intros _; apply wle_bind; [exact H|
        intros _; apply wle_bind; [apply wle_gets|intros ?; apply wle_ret]]]]]|lia].
  - lia.
Qed.
Lemma wle_iter {T} (g : T -> W unit) (n : T -> Z) l : (forall t, In t l -> wle (n t) (g t)) -> wle (sumz n l) (iterM g l).
Proof.
  induction l as [|t l IH]; intros H; [apply wle_ret|]. unfold sumz. cbn [map fold_right iterM].
  apply wle_bind; [apply H; now left|]. intros _. apply IH. intros; apply H; now right.
Qed.
Lemma sumz_const {T} (c : Z) (l : list T) : sumz (fun _ => c) l = c * zlen l.
Proof. unfold sumz. induction l as [|t l IH]; [rewrite (@zlen_nil T), Z.mul_0_r; reflexivity|]. cbn [map fold_right]. rewrite zlen_cons, IH. lia. Qed.
Lemma wle_ints n l : wle (Z.of_nat n * zlen l) (iterM (write_int n) l).
Proof. rewrite <- sumz_const. apply wle_iter. intros; apply wle_int. Qed.

Lemma wle_wrun {A} n off (m : W A) buf : wle n m -> wrun off m = Ok buf -> zlen buf <= n.
Proof.
  intros H E. unfold wrun in E. destruct (m (w_new off)) as [[x s]| | | |] eqn:E1; try discriminate.
  specialize (H _ _ _ E1). cbn in E. injection E as <-. cbn [w_new wp] in H. rewrite (@zlen_nil Z) in H. exact H.
Qed.

(** ** The objects of a tree *)
Lemma wle_obj0 id bits : wle 10 (write_u32 id ;;; write_u32 bits ;;; write_u16 0).
Proof. eapply wle_le; [apply wle_bind; [apply (wle_int 4)|intros _; apply wle_bind; [apply (wle_int 4)|intros _; apply (wle_int 2)]]|]. lia. Qed.
Lemma wle_obj1 id bits : wle 10 (write_u32 id ;;; write_u32 bits).
Proof. eapply wle_le; [apply wle_bind; [apply (wle_int 4)|intros _; apply (wle_int 4)]|]. lia. Qed.
Lemma wle_obj o : wle 12 (obj_marshal o).
Proof.
  unfold obj_marshal. apply (wle_bind 2 10); [apply (wle_int 2)|intros _].
  destruct (negb _); [apply wle_obj0|apply wle_obj1].
Qed.
Lemma wle_named n t : wle (zlen n + zlen t + 28) (named_marshal (new_named n t)).
Proof.
  unfold named_marshal. eapply wle_le.
  - apply wle_bind; [apply wle_lm1|intros _]. apply wle_header. apply wle_bind; [apply wle_obj|intros _].
    apply wle_bind; [apply wle_string|intros _; apply wle_string].
  - cbn [new_named n_name n_title]. lia.
Qed.

(** Collects the bound of a writer made of the pieces above. *)
Ltac wle_step :=
  lazymatch goal with
  | |- wle _ (with_header _ _) => apply wle_header
  | |- wle _ (write_string _) => apply wle_string
  | |- wle _ (write_bool _) => apply wle_bool
  | |- wle _ write_object_nil => apply wle_nil
  | |- wle _ (ret _) => apply wle_ret
  | |- wle _ (gets _) => apply wle_gets
  | |- wle _ len_minus_1 => apply wle_lm1
  | |- wle _ (obj_marshal _) => apply wle_obj
  | |- wle _ (named_marshal (new_named _ _)) => apply wle_named
  | |- wle _ (bind _ _) => apply wle_bind; [|intros]
  | |- wle _ (write_i8 _) => apply (wle_int 1)
  | |- wle _ (write_u8 _) => apply (wle_int 1)
  | |- wle _ (write_i16 _) => apply (wle_int 2)
  | |- wle _ (write_u16 _) => apply (wle_int 2)
  | |- wle _ (write_i32 _) => apply (wle_int 4)
  | |- wle _ (write_u32 _) => apply (wle_int 4)
  | |- wle _ (write_f32 _) => apply (wle_int 4)
  | |- wle _ (write_i64 _) => apply (wle_int 8)
  | |- wle _ (write_f64 _) => apply (wle_int 8)
  end.


Lemma wle_attfill a : wle 10 (attfill_marshal a).
Proof. unfold attfill_marshal. eapply wle_le; [repeat wle_step|]. lia. Qed.
Lemma wle_attline a : wle 12 (attline_marshal a).
Proof. unfold attline_marshal. eapply wle_le; [repeat wle_step|]. lia. Qed.
Lemma wle_attmarker a : wle 14 (attmarker_marshal a).
Proof. unfold attmarker_marshal. eapply wle_le; [repeat wle_step|]. lia. Qed.
Lemma wle_iobits0 : wle 7 (iobits_marshal 0).
Proof. unfold iobits_marshal. cbn [Z.eqb negb]. eapply wle_le; [repeat wle_step|]. lia. Qed.
Lemma wle_objarray items n : wle n (iterM (fun m => m) items) -> wle (n + 31) (objarray_marshal None items).
Proof. intros H. unfold objarray_marshal. eapply wle_le; [apply wle_header; repeat wle_step; exact H|]. rewrite (@zlen_nil Z). lia. Qed.
Lemma wle_bound k z : wle 8 (write_bound k z).
Proof. destruct k; cbn [write_bound]; (eapply wle_le; [wle_step|lia]). Qed.

Lemma wle_tleaf n t a b c d e : wle (zlen n + zlen t + 52) (tleaf_marshal (mkTL (new_named n t) a b c d e)).
Proof.
  unfold tleaf_marshal. cbn [tl_named tl_len tl_etype tl_offset tl_hasrange tl_unsigned].
  eapply wle_le; [repeat wle_step|]. lia.
Qed.
Lemma leaf_class_len k : zlen (leaf_class k) <= 12.
Proof. destruct k; rewrite zlen_def; vm_compute; congruence. Qed.

Lemma leaf_shape name t l : col_ty t -> leaf_st name t l ->
  exists ti a b c d e, lf_t l = mkTL (new_named name ti) a b c d e /\ zlen ti <= zlen name + 42.
Proof.
  intros C L. pose proof (zlen_nonneg name). destruct t as [p| |t|n t]; cbn [leaf_st leaf_new] in L.
  - destruct (prim_leaf p) as [k u]. injection L as <-. cbn [lf_t]. exists name. do 5 eexists. split; [reflexivity|lia].
  - destruct L as (len & b & _ & _ & ->). cbn [lf_t]. exists name. do 5 eexists. split; [reflexivity|lia].
  - injection L as <-. cbn [lf_t]. exists name. do 5 eexists. split; [reflexivity|lia].
  - destruct t as [p| | |]; cbn [col_ty] in C; try contradiction. rewrite to_i32_id in L by (red; lia).
    destruct (Z.eqb_spec (Z.of_nat n) 0); [lia|].
    destruct (prim_leaf p) as [k u]. destruct (Z.ltb_spec (Z.of_nat n) 0); [lia|]. injection L as <-. cbn [lf_t].
    change (91 :: dec (Z.of_nat n) ++ bs "]") with (bs "[" ++ dec (Z.of_nat n) ++ bs "]").
    eexists. do 5 eexists. split; [reflexivity|].
    pose proof (zlen_dec_bound (Z.of_nat n) ltac:(lia)). rewrite !zlen_app. change (zlen (bs "[")) with 1. change (zlen (bs "]")) with 1. lia.
Qed.

Definition leaf_cost (name : bytes) : Z := 2 * zlen name + 140.
Lemma wle_leaf name t l i : col_ty t -> leaf_st name t l -> wle (leaf_cost name) (leaf_item (i, l)).
Proof.
  intros C L. destruct (leaf_shape _ _ _ C L) as (ti & a & b & c & d & e & E & T). unfold leaf_item. cbn [fst snd].
  pose proof (leaf_class_len (lf_kind l)). pose proof (zlen_nonneg name). pose proof (zlen_nonneg ti).
  eapply wle_le; [apply wle_bind; [apply (wle_any _ _ (zlen name + zlen ti + 74)); [lia|]|intros; apply wle_ret]|unfold leaf_cost; lia].
  unfold leaf_marshal. rewrite E. destruct (lf_kind l); try (eapply wle_le; [apply wle_panic|lia]);
   (eapply wle_le; [apply wle_bind; [apply wle_lm1|intros _]; apply wle_header; apply wle_bind; [apply wle_tleaf|intros _];
     apply wle_bind; [apply wle_bound|intros _; apply wle_bound]|lia]).
Qed.

Lemma wle_padded n v k m : 0 <= k <= m -> zlen v = k -> wle (1 + Z.of_nat n * m) (write_padded (write_int n) v k m).
Proof.
  intros H E. unfold write_padded. destruct (_ || _); [eapply wle_le; [apply wle_panic|nia]|].
  eapply wle_le; [apply wle_bind; [apply (wle_int 1)|intros _; apply wle_bind; [apply wle_ints|intros _; apply wle_ints]]|].
  rewrite zlen_repeat. assert (zlen (firstn (Z.to_nat k) v) <= k) by (rewrite zlen_def, firstn_length; lia). nia.
Qed.

Lemma wle_leaves name t l i : col_ty t -> leaf_st name t l ->
  wle (leaf_cost name + 31) (objarray_marshal None (map leaf_item [(i, l)])).
Proof.
  intros C L. apply wle_objarray. cbn [map iterM]. eapply wle_le; [apply wle_bind; [eapply wle_leaf; eauto|intros; apply wle_ret]|lia].
Qed.

Definition branch_cost (name : bytes) (nb : Z) : Z := 4 * zlen name + 20 * nb + 1000.
Lemma wle_tbranch path tn name t recs ds n c i : col_ty t -> names_ok name tn (bs "TBasket") ->
  col_core path name tn t recs ds n c ->
  wle (branch_cost name (zlen ds) - 200) (tbranch_marshal (wc_core c) [(i, wc_leaf c)]).
Proof.
  intros C N (H1 & H2 & H3 & (mb & tot & en & E & H4 & H5 & H6) & H7 & H8). rewrite E.
  pose proof (zlen_nonneg ds). pose proof (zlen_nonneg name).
  assert (LE : zlen en = zlen ds + 1) by (subst en; apply d_entry_len).
  unfold tbranch_marshal, max_baskets, ccore.
  cbn [b_named b_fill b_compress b_bsize b_eol b_wb b_entrynum b_iobits b_offset b_split b_entries b_first b_tot b_zip b_bytes b_entry b_seek b_fname].
  set (m := if zlen ds + 1 <? 10 then 10 else zlen ds + 1).
  assert (M : zlen ds + 1 <= m <= zlen ds + 10) by (unfold m; destruct (Z.ltb_spec (zlen ds + 1) 10); lia).
  eapply wle_le.
  - repeat lazymatch goal with
    | |- wle _ (attfill_marshal _) => apply wle_attfill
    | |- wle _ (iobits_marshal 0) => apply wle_iobits0
    | |- wle _ (objarray_marshal None []) => apply (wle_objarray []); apply wle_ret
    | |- wle _ (objarray_marshal None (map _ _)) => apply (wle_leaves name t); assumption
    | |- wle _ (write_padded write_i32 _ _ _) => apply (wle_padded 4); [lia|rewrite zlen_map; reflexivity]
    | |- wle _ (write_padded write_i64 en _ _) => apply (wle_padded 8); [lia|exact LE]
    | |- wle _ (write_padded write_i64 _ _ _) => apply (wle_padded 8); [lia|rewrite zlen_map; reflexivity]
    | |- _ => wle_step end.
  - destruct (root_code_ok t C) as [_ RL]. rewrite !zlen_app. change (zlen (bs "/")) with 1. rewrite (@zlen_nil Z). unfold branch_cost, leaf_cost. lia.
Qed.

Lemma elem_shape t e : col_ty t -> elem_for t = Some e -> exists c, e = mkBE c [] [] 0 0 (-1) 0 (-1) 0 /\ zlen c <= 40.
Proof.
  intros C H. destruct t as [| |t|]; try discriminate. cbn [elem_for] in H.
  destruct t as [p| | |]; cbn [col_ty] in C; try contradiction.
  destruct (w_class (TVec (TPrim p))) as [c|] eqn:EC; [|discriminate]. injection H as <-. exists c. split; [reflexivity|].
  rewrite vec_class in EC by exact C. injection EC as <-. destruct p; rewrite zlen_def; vm_compute; congruence.
Qed.

Lemma wle_branch path tn s recs ds n c i : cspec_ok tn s -> col_core path (cs_name s) tn (cs_ty s) recs ds n c ->
  wle (branch_cost (cs_name s) (zlen ds)) (branch_item (col_wbr (i, c))).
Proof.
  intros (C & N & _) HC. pose proof (wle_tbranch _ _ _ _ _ _ _ _ (2 * i + 1) C N HC) as T.
  pose proof HC as (_ & H2 & _). pose proof (zlen_nonneg (cs_name s)). pose proof (zlen_nonneg ds).
  unfold branch_item, col_wbr. cbn [fst snd]. unfold branch_cost in *.
  destruct (wc_elem c) as [e|] eqn:EE.
  - destruct (elem_shape _ e C (eq_sym H2)) as (k & -> & K). pose proof (zlen_nonneg k).
    eapply wle_le; [apply wle_bind; [eapply wle_any; [|unfold wbr_marshal; cbn [wb_elem wb_core wb_leaves be_class be_parent be_clones be_chksum be_clsver be_id be_btype be_stype be_max];
      apply wle_bind; [apply wle_gets|intros; apply wle_bind; [apply wle_header; apply wle_bind; [exact T|intros; repeat wle_step]|intros; repeat wle_step]]]|intros; apply wle_ret]|].
    + rewrite (@zlen_nil Z). lia.
    + rewrite (@zlen_nil Z). unfold wb_class. cbn [wb_elem]. change (zlen (bs "TBranchElement")) with 14. lia.
  - eapply wle_le; [apply wle_bind; [eapply wle_any; [|unfold wbr_marshal; cbn [wb_elem wb_core wb_leaves]; exact T]|intros; apply wle_ret]|].
    + lia.
    + unfold wb_class. cbn [wb_elem]. change (zlen (bs "TBranch")) with 7. lia.
Qed.

Lemma sumz_map {A B} (g : B -> Z) (h : A -> B) l : sumz g (map h l) = sumz (fun a => g (h a)) l.
Proof. unfold sumz. now rewrite map_map. Qed.

Definition col_cost (s : cspec) : Z := leaf_cost (cs_name s) + branch_cost (cs_name s) (nbaskets s).

Lemma wle_branches path tn recs ss cols : Forall (cspec_ok tn) ss -> Forall2 (fdone path tn recs) ss cols -> forall i,
  wle (sumz (fun s => branch_cost (cs_name s) (nbaskets s)) ss) (iterM (fun m => m) (map branch_item (map col_wbr (number i cols)))).
Proof.
  intros W F. induction F as [|s c ss cols (ds & n & HC & _ & HN & _) _ IH]; intros i; [apply wle_ret|].
  inversion W as [|? ? Ws W']; subst. cbn [number map iterM]. unfold sumz. cbn [map fold_right].
  apply wle_bind; [|intros _; apply IH; exact W'].
  eapply wle_le; [eapply wle_branch; eauto|]. unfold branch_cost. lia.
Qed.
Lemma wle_tleaves path tn recs ss cols : Forall (cspec_ok tn) ss -> Forall2 (fdone path tn recs) ss cols -> forall i,
  wle (sumz (fun s => leaf_cost (cs_name s)) ss) (iterM (fun m => m) (map leaf_item (tree_leaves (map col_wbr (number i cols))))).
Proof.
  intros W F. induction F as [|s c ss cols (ds & n & HC & _ & HN & _) _ IH]; intros i; [apply wle_ret|].
  inversion W as [|? ? (C & _) W']; subst. cbn [number map tree_leaves flat_map col_wbr snd wb_leaves app iterM]. unfold sumz. cbn [map fold_right].
  apply wle_bind; [|intros _; apply IH; exact W'].
  destruct HC as (_ & _ & H3 & _). eapply wle_leaf; eauto.
Qed.

Definition tree_cost (name : bytes) (ss : list cspec) : Z :=
  zlen name + 600 + sumz (fun s => leaf_cost (cs_name s)) ss + sumz (fun s => branch_cost (cs_name s) (nbaskets s)) ss.
Lemma wle_tree path name recs ss cols tot n : Forall (cspec_ok name) ss -> Forall2 (fdone path name recs) ss cols ->
  wle (tree_cost name ss) (tree_marshal (wtree_full (t_add (tree0 name) tot n) cols)).
Proof.
  intros W F. pose proof (wle_branches _ _ _ _ _ W F 0) as B. pose proof (wle_tleaves _ _ _ _ _ W F 0) as L.
  unfold tree_marshal, wtree_full, t_add, tree0.
  cbn [t_named t_line t_fill t_marker t_entries t_tot t_zip t_saved t_flushed t_weight t_timer t_scan t_update t_deol
    t_maxentries t_maxloop t_maxvirt t_autosave t_autoflush t_estimate t_ranges t_sizes t_iobits t_branches].
  change (iterM write_i64 []) with (@ret wbuf unit tt).
  eapply wle_le.
  - apply wle_header. repeat lazymatch goal with
    | |- wle _ (attfill_marshal _) => apply wle_attfill
    | |- wle _ (attline_marshal _) => apply wle_attline
    | |- wle _ (attmarker_marshal _) => apply wle_attmarker
    | |- wle _ (iobits_marshal 0) => apply wle_iobits0
    | |- wle _ (objarray_marshal None (map branch_item _)) => apply wle_objarray; exact B
    | |- wle _ (objarray_marshal None _) => apply wle_objarray; exact L
    | |- _ => wle_step end.
  - rewrite (@zlen_nil Z). unfold tree_cost. lia.
Qed.
