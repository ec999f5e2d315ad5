(** Writing a whole tree: building it, the object that is stored, the file afterwards. *)
From Verif Require Export ColType.

(** ** Records that begin with a header have at least four bytes *)
Lemma rrun_u32_len {A} off (k : Z -> R A) b v : rrun off (bind read_u32 k) b = Ok v -> 4 <= zlen b.
Proof.
  unfold rrun, bind at 1, read_u32, read_uint. unfold bind, extract, r_new. cbn [rc rp].
  destruct ((0 <=? 0) && (0 <=? Z.of_nat 4) && (0 + Z.of_nat 4 <=? zlen b)) eqn:E; [intros _|discriminate].
  apply andb_true_iff in E as [_ E]. lia.
Qed.
Lemma rrun_header_len {A} off (k : header -> R A) b v : rrun off (bind read_header k) b = Ok v -> 4 <= zlen b.
Proof.
  intros H. unfold read_header, gets in H.
  eapply (rrun_u32_len off (fun bcnt => bind (if negb (Z.land bcnt kByteCountMask =? 0) then
    v <- read_u16 ;; ret (mkH (to_i16 v) (r_pos (r_new b off)) (Z.ldiff bcnt kByteCountMask))
  else set_pos (r_pos (r_new b off)) ;;; v <- read_u16 ;; ret (mkH (to_i16 v) (r_pos (r_new b off)) 0)) k)).
  rewrite <- H. unfold rrun. f_equal. unfold bind. destruct (read_u32 (r_new b off)) as [[x s]| | | |]; reflexivity.
Qed.

Lemma tree_buf_len off t buf : tree_ok t -> wrun off (tree_marshal t) = Ok buf -> 0 <= off -> off + zlen buf < 2 ^ 31 ->
  4 <= zlen buf.
Proof.
  intros T W Ho Hb. pose proof (sim0_rrun _ _ _ _ off buf (tree_sim 0 t T) W Ho Hb) as H.
  change (um 3 (bs "TTree")) with (t <- tree_unmarshal (roa 2) ;; ret (OTree t)) in H.
  unfold tree_unmarshal in H.
  match type of H with rrun _ (bind (bind read_header ?k1) ?k2) _ = _ =>
    apply (rrun_header_len off (fun h => bind (k1 h) k2) buf (OTree (tree_seen t))) end.
  rewrite <- H. unfold rrun, bind. destruct (read_header (r_new buf off)) as [[x s]| | | |]; reflexivity.
Qed.

Lemma sinfos_buf_len off sis buf : Forall sinfo_ok sis -> zlen sis < 2 ^ 31 -> wrun off (sinfos_marshal sis) = Ok buf ->
  0 <= off -> off + zlen buf < 2 ^ 31 -> 4 <= zlen buf.
Proof.
  intros T L W Ho Hb. pose proof (sim0_rrun _ _ _ _ off buf (sinfos_sim 0 sis T L) W Ho Hb) as H.
  change (um 4 (bs "TList")) with (' (n0, l0) <- list_unmarshal (roa 3) ;; ret (OList n0 l0)) in H.
  unfold list_unmarshal in H.
  match type of H with rrun _ (bind (bind read_header ?k1) ?k2) _ = Ok ?v =>
    apply (rrun_header_len off (fun h => bind (k1 h) k2) buf v) end.
  rewrite <- H. unfold rrun, bind. destruct (read_header (r_new buf off)) as [[x s]| | | |]; reflexivity.
Qed.

(** ** Text that is stored with a column *)
Lemma zlen_dec_bound z : 0 <= z < 4294967296 -> zlen (dec z) <= 40.
Proof.
  intros H. assert (G : forall fuel x, zlen (dec_digits fuel x) <= Z.of_nat fuel).
  { induction fuel as [|fuel IH]; intros x; cbn [dec_digits]; [rewrite (@zlen_nil Z); lia|].
    destruct (x <? 10); [rewrite zlen_cons, (@zlen_nil Z); lia|]. rewrite zlen_app, zlen_cons, (@zlen_nil Z).
    specialize (IH (x / 10)). lia. }
  unfold dec. pose proof (G (S (Z.to_nat (Z.log2 z))) z) as L.
  assert (Z.log2 z < 32).
  { destruct (Z.eq_dec z 0) as [->|]; [reflexivity|]. apply Z.log2_lt_pow2; [lia|]. change (2 ^ 32) with 4294967296. lia. }
  pose proof (Z.log2_nonneg z). lia.
Qed.
Lemma dec_ascii z : 0 <= z -> is_ascii (dec z) = true.
Proof.
  intros H. destruct (dec_ok z H) as (_ & F & _). unfold is_ascii. rewrite forallb_forall in *. intros c Hc.
  specialize (F c Hc). unfold is_digit, in_rng in *. lia.
Qed.

Lemma str_ok_app a b : str_ok a -> is_ascii b = true -> zlen a + zlen b < 2147483648 -> str_ok (a ++ b).
Proof. intros [_ U] B L. split; [rewrite zlen_app; exact L|]. apply utf8_app_true; [exact U|now apply ascii_utf8]. Qed.

Lemma is_ascii_app a b : is_ascii (a ++ b) = is_ascii a && is_ascii b.
Proof. apply forallb_app. Qed.

Lemma root_code_ok t : col_ty t -> is_ascii (root_code t) = true /\ zlen (root_code t) <= 100.
Proof.
  destruct t as [p| |t|n t]; cbn [root_code col_ty]; intros H.
  - destruct p; (split; [reflexivity|rewrite zlen_def; vm_compute; discriminate]).
  - split; [reflexivity|rewrite zlen_def; vm_compute; discriminate].
  - destruct t as [p| | |]; try contradiction. destruct p; (split; [reflexivity|rewrite zlen_def; vm_compute; discriminate]).
  - destruct t as [p| | |]; try contradiction. cbn [root_code].
    rewrite !is_ascii_app, dec_ascii by lia. rewrite !zlen_app. pose proof (zlen_dec_bound (Z.of_nat n) ltac:(lia)).
    assert (is_ascii (prim_code p) = true /\ zlen (prim_code p) <= 1) as [-> HL] by (destruct p; split; rewrite ?zlen_def; vm_compute; congruence).
    split; [reflexivity|]. change (zlen (bs "[")) with 1. change (zlen (bs "]/")) with 2. lia.
Qed.

Lemma name_len name tn c : names_ok name tn c -> zlen name < 32768.
Proof.
  intros (H1 & H2 & H3 & H4). pose proof (tstring_bound _ H1). pose proof (tstring_pos _ H2). pose proof (tstring_pos _ H3).
  unfold key_len_for in H4. destruct (beqb c (bs "TBasket")); lia.
Qed.

Lemma named_ok_new n t : str_ok n -> str_ok t -> named_ok (new_named n t).
Proof. intros H1 H2. split; [split; red; cbn; lia|]. split; assumption. Qed.

(** ** A finished column is a storable object *)
Lemma leaf_ok_st name t l : col_ty t -> str_ok name -> zlen name < 32768 -> leaf_st name t l -> leaf_ok l.
Proof.
  intros C S L H. pose proof (leaf_st_kind _ _ _ C H) as HK. unfold leaf_ok. rewrite HK.
  assert (K0 : forall p, fst (prim_leaf p) <> LKBase /\ bound_ok (fst (prim_leaf p)) 0).
  { intros p. destruct p; (split; [discriminate|cbn; try (red; lia); auto]). }
  destruct t as [p| |t|n t]; cbn [leaf_st leaf_new kind_for] in *.
  - destruct (K0 p) as [K1 K2]. destruct (prim_leaf p) as [k u]. injection H as <-. cbn [fst lf_t lf_a lf_b] in *.
    split; [exact K1|]. split; [|split; exact K2].
    split; [now apply named_ok_new|]. split; [red; cbn; lia|]. split; [apply is_i32_cast|red; cbn; lia].
  - destruct H as (len & b & H1 & H2 & ->). cbn [lf_t lf_a lf_b]. split; [discriminate|].
    split; [|split; [hnf; lia|exact H2]].
    split; [now apply named_ok_new|]. split; [exact H1|]. split; red; cbn; lia.
  - injection H as <-. split; [discriminate|]. cbn [lf_t lf_a lf_b]. split; [|split; hnf; lia].
    split; [now apply named_ok_new|]. split; [red; cbn; lia|]. split; red; cbn; lia.
  - destruct t as [p| | |]; cbn [col_ty] in C; try contradiction. rewrite to_i32_id in H by (red; lia).
    destruct (Z.eqb_spec (Z.of_nat n) 0); [lia|]. destruct (K0 p) as [K1 K2].
    destruct (prim_leaf p) as [k u]. destruct (Z.ltb_spec (Z.of_nat n) 0); [lia|]. injection H as <-.
    cbn [fst lf_t lf_a lf_b] in *. split; [exact K1|]. split; [|split; exact K2].
    split; [|split; [red; cbn; lia|split; [|red; cbn; lia]]].
    + change (91 :: dec (Z.of_nat n) ++ bs "]") with (bs "[" ++ dec (Z.of_nat n) ++ bs "]").
      apply named_ok_new; [exact S|]. apply str_ok_app; [exact S|rewrite !is_ascii_app, dec_ascii by lia; reflexivity|].
      pose proof (zlen_dec_bound (Z.of_nat n) ltac:(lia)). rewrite !zlen_app. change (zlen (bs "[")) with 1. change (zlen (bs "]")) with 1. lia.
    + cbn [tl_etype]. pose proof (is_i32_cast (Z.of_nat n * Z.of_nat (prim_size p))) as I. set (x := to_i32 _) in *. red in I |- *.
      assert (Z.abs (x ÷ Z.of_nat n) <= Z.abs x).
      { rewrite <- Z.quot_abs by lia. rewrite (Z.abs_eq (Z.of_nat n)) by lia. rewrite Z.quot_div_nonneg by lia.
        apply Z.div_le_upper_bound; [lia|]. nia. }
      assert (x = -2147483648 \/ Z.abs x <= 2147483647) as [E|] by lia; [|lia].
      rewrite E in *. destruct (Z.eq_dec (Z.of_nat n) 1) as [->|]; [rewrite Z.quot_1_r; lia|].
      assert ((-2147483648) ÷ Z.of_nat n <= 0).
      { pose proof (Z.quot_opp_l 2147483648 (Z.of_nat n) ltac:(lia)) as X. change (Z.opp 2147483648) with (-2147483648) in X. rewrite X. rewrite Z.quot_div_nonneg by lia.
        pose proof (Z.div_pos 2147483648 (Z.of_nat n) ltac:(lia) ltac:(lia)). lia. }
      lia.
Qed.

Lemma Forall_i64_le n l : 0 <= n < 2 ^ 63 -> Forall (fun z => 0 <= z <= n) l -> Forall is_i64 l.
Proof. intros H. apply Forall_impl. intros a Ha. red. change (256 ^ Z.of_nat 8 / 2) with (2 ^ 63). lia. Qed.

Section Written.
Variables (path tn : bytes).
Hypothesis P : path_ok path.

Lemma dones_bounds name t recs i ds : names_ok name tn (bs "TBasket") -> dones_ok path name tn t recs i ds ->
  Forall is_i32 (map (d_nbytes name tn t) ds) /\ Forall is_i64 (map d_seek ds).
Proof using P.
  intros N. revert i; induction ds as [|d ds IH]; intros i; cbn [dones_ok map]; [split; constructor|].
  intros (A & _ & HB & _ & R). destruct (IH _ R) as [X Y].
  pose proof (bkl_bounds _ _ N). pose proof (zlen_nonneg (payload name tn t (d_vals d))).
  destruct A as (pre & post & _ & ES). pose proof (E0_pos path P). pose proof (rsize_nonneg pre).
  unfold kStartBigFile, d_nbytes in *.
  split; constructor; auto; red; [|change (256 ^ Z.of_nat 8 / 2) with (2 ^ 63)]; lia.
Qed.

Lemma wbr_ok_finished recs s vals c i : cspec_ok tn s -> rsize recs <= kStartBigFile -> finished path tn recs s vals c ->
  wbr_ok (snd (col_wbr (i, c))).
Proof using P.
  intros (C & N & W) HR (ds & _ & HL & _ & (HT & HE & HLf & (mb & tot & en & E & H4 & H5 & H6) & DO & HA)).
  pose proof (name_len _ _ _ N) as NL. destruct N as (N1 & N2 & N3 & N4). assert (N : names_ok (cs_name s) tn (bs "TBasket")) by (split; auto).
  cbn [col_wbr snd]. unfold wbr_ok. cbn [wb_core wb_elem wb_leaves wbr_addrs map fst].
  destruct (dones_bounds _ _ _ _ _ N DO) as [B1 B2].
  unfold kStartBigFile in HR. pose proof (zlen_nonneg (d_all ds)). pose proof (zlen_nonneg ds).
  split; [|split; [|split; [|split]]].
  - rewrite E. unfold bcore_ok, ccore.
    cbn [b_named b_fill b_compress b_bsize b_eol b_wb b_entrynum b_iobits b_offset b_maxb b_split b_entries b_first b_tot b_zip b_bytes b_entry b_seek b_fname].
    rewrite !zlen_map.
    split; [apply named_ok_new; [exact N1|]|].
    { destruct (root_code_ok _ C) as [RA RL]. apply str_ok_app; [exact N1|rewrite is_ascii_app, RA; reflexivity|].
      rewrite zlen_app. change (zlen (bs "/")) with 1. lia. }
    split; [split; red; cbn; lia|]. split; [red; lia|]. split; [red; lia|].
    split; [unfold eol_for; destruct (vsize _); red; lia|]. split; [lia|].
    assert (is_i64 (zlen (d_all ds))) by (red; change (256 ^ Z.of_nat 8 / 2) with (2 ^ 63); lia).
    assert (is_i64 tot) by (red; change (256 ^ Z.of_nat 8 / 2) with (2 ^ 63); lia).
    split; [assumption|]. split; [red; lia|]. split; [red; lia|]. split; [red; lia|]. split; [assumption|].
    split; [red; lia|]. split; [assumption|]. split; [assumption|]. split; [reflexivity|]. split; [exact B1|].
    split; [rewrite H4; apply d_entry_len|]. split; [eapply Forall_i64_le; [|exact H5]; lia|]. split; [reflexivity|]. split; [exact B2|exact str_ok_nil].
  - rewrite HE. intros e He. unfold elem_for in He. destruct (cs_ty s) as [p| |t|n t]; try discriminate.
    destruct t as [p| | |]; cbn [col_ty] in C; try contradiction. rewrite vec_class in He by exact C. injection He as <-.
    destruct (vec_class_facts p C) as (_ & _ & SC). split; [exact SC|]. split; [exact str_ok_nil|]. split; [exact str_ok_nil|].
    cbn. repeat (split; [red; lia|]). red; lia.
  - constructor; [|constructor]. cbn [snd]. exact (leaf_ok_st _ _ _ C N1 NL HLf).
  - repeat constructor. intros [].
  - reflexivity.
Qed.

Lemma addrs_number cols : forall i, 
  (forall a, In a (flat_map branch_addrs (map col_wbr (number i cols))) -> 2 * i <= a) /\
  NoDup (flat_map branch_addrs (map col_wbr (number i cols))).
Proof using Type.
  induction cols as [|c cols IH]; intros i; cbn [number map flat_map]; [split; [intros a []|constructor]|].
  destruct (IH (i + 1)) as [H1 H2]. change (branch_addrs (col_wbr (i, c))) with [2 * i; 2 * i + 1]. cbn [app].
  split.
  - intros a [H|[H|H]]; [lia|lia|]. apply H1 in H. lia.
  - constructor; [|constructor; [|exact H2]].
    + intros [H|H]; [lia|]. apply H1 in H. lia.
    + intros H. apply H1 in H. lia.
Qed.

Lemma zlen_number {T} (l : list T) i : zlen (number i l) = zlen l.
Proof using Type. revert i; induction l as [|x l IH]; intros i; cbn [number]; rewrite ?zlen_cons, ?IH; [now rewrite !zlen_nil|reflexivity]. Qed.

Lemma leaves_number cols : forall i, zlen (tree_leaves (map col_wbr (number i cols))) = zlen cols.
Proof using Type.
  induction cols as [|c cols IH]; intros i; cbn [number map tree_leaves flat_map]; [reflexivity|].
  unfold tree_leaves in IH. rewrite zlen_app, IH, zlen_cons. reflexivity.
Qed.

Lemma tree_ok_written recs ss (vals : cspec -> list val) cols name tot n :
  Forall (cspec_ok tn) ss -> rsize recs <= kStartBigFile -> str_ok name ->
  Forall2 (fun s c => finished path tn recs s (vals s) c) ss cols -> zlen cols < 2 ^ 31 ->
  0 <= n <= kStartBigFile -> Z.abs tot <= (n + 1) * 2147483648 ->
  tree_ok (wtree_full (t_add (tree0 name) tot n) cols).
Proof using P.
  intros W HR HN F2 HC Hn Ht. unfold kStartBigFile in Hn.
  unfold tree_ok, wtree_full, t_add, tree0.
  cbn [t_named t_line t_fill t_marker t_entries t_tot t_zip t_saved t_flushed t_weight t_timer t_scan t_update t_deol
       t_maxentries t_maxloop t_maxvirt t_autosave t_autoflush t_estimate t_ranges t_sizes t_iobits t_branches].
  split; [apply named_ok_new; [exact HN|exact str_ok_nil]|].
  split; [split; [|split]; red; cbn; lia|]. split; [split; red; cbn; lia|]. split; [split; [|split]; red; cbn; lia|].
  do 5 (split; [red; change (256 ^ Z.of_nat 8 / 2) with (2 ^ 63); lia|]).
  split; [red; lia|]. do 4 (split; [red; lia|]).
  do 6 (split; [red; change (256 ^ Z.of_nat 8 / 2) with (2 ^ 63); lia|]).
  split; [reflexivity|]. split; [reflexivity|]. split; [constructor|]. split; [constructor|]. split; [red; lia|].
  split; [|split; [|split]].
  - clear - W HR F2 P. generalize 0 as i. revert W. induction F2 as [|s c ss cols H _ IH]; intros W i; cbn [number map]; [constructor|].
    inversion W; subst. constructor; [eapply wbr_ok_finished; eauto|apply IH; assumption].
  - rewrite zlen_map, zlen_number. exact HC.
  - rewrite leaves_number. exact HC.
  - unfold tree_addrs. cbn [t_branches]. apply addrs_number.
Qed.
End Written.
