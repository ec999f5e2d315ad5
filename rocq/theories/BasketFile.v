(** The baskets of a finished file are those the entries were cut into. *)
From Verif Require Import Base Values Key Obj TreeObj File FileLay FileOps FileFinal Column ColOps TreeOps TreeWrite TreeSession CodecFacts Codec StreamerDb ColRead
  Spec SpecTree SpecRoom SpecBasket SpecDamage SessFacts RoomFacts SlotFacts BasketFacts PartFacts DamageFile.

Lemma last_entry l : forall n d, last (entries_before n l) d = n + zlen (concat l).
Proof.
  induction l as [|p l IH]; intros n d.
  - cbn. rewrite (@zlen_nil val). lia.
  - change (entries_before n (p :: l)) with (n :: entries_before (n + zlen p) l). cbn [concat].
    assert (E : last (n :: entries_before (n + zlen p) l) d = last (entries_before (n + zlen p) l) d) by (destruct l; reflexivity).
    rewrite E, IH, zlen_app. lia.
Qed.
Lemma cut_concat size vs : forall held, concat (cut size held vs) = held ++ vs.
Proof.
  induction vs as [|v vs IH]; intros held; cbn [cut]; [reflexivity|].
  destruct (32768 <=? _); cbn [concat]; rewrite IH; rewrite <- ?app_assoc; reflexivity.
Qed.
Lemma cut_in size vs : forall held p, In p (cut size held vs) -> forall v, In v p -> In v (held ++ vs).
Proof.
  intros held p I v J. rewrite <- (cut_concat size vs held). apply in_concat. exists p. auto.
Qed.

(** What the branch of a column says about its baskets. *)
Definition counted (tree_name : bytes) (c : column) (b : branch) : Prop := let n := br_core b in
  b_entries n = zlen (c_values c) /\ b_entrynum n = zlen (c_values c) /\ b_first n = 0 /\ b_wb n = zlen (in_baskets c) /\
  b_tot n = total (basket_bytes tree_name c) (in_baskets c) /\ b_zip n = total (basket_bytes tree_name c) (in_baskets c).
Definition listed (tree_name : bytes) (c : column) (b : branch) : Prop :=
  b_entry (br_core b) = entries_before 0 (in_baskets c) /\ b_bytes (br_core b) = map (basket_bytes tree_name c) (in_baskets c) /\
  zlen (in_baskets c) <= 32767 /\ counted tree_name c b /\ Forall (fun v => value_bytes (c_type c) v < 2147483648) (c_values c) /\
  exists l, br_leaves b = [l] /\ right_leaf c l.

Lemma prim_letter p : prim_leaf p = (letter_of p, no_sign p). Proof. destruct p; reflexivity. Qed.
Lemma prim_bytes p : prim_size p = scalar_bytes p /\ 1 <= Z.of_nat (scalar_bytes p) <= 8. Proof. destruct p; cbn; lia. Qed.
Lemma longer_max t l : Forall (fun v => esize t v = value_bytes t v /\ 0 <= value_bytes t v < 2147483648) l -> forall m, 0 <= m ->
  fold_left (longer t) l m = Z.max m (fold_right Z.max 0 (map (value_bytes t) l)).
Proof.
  induction 1 as [|v l (E & B) _ IH]; intros m M; cbn [fold_left map fold_right]; [lia|].
  assert (L : longer t m v = Z.max m (value_bytes t v)).
  { unfold longer, isize. rewrite E, to_i32_id by (red; lia). destruct (Z.leb_spec m (value_bytes t v)); lia. }
  rewrite L, IH by lia. lia.
Qed.
Lemma max_nonneg l : 0 <= fold_right Z.max 0 l. Proof. induction l; cbn [fold_right]; lia. Qed.
Lemma leaf_right c l : col_ty (c_type c) ->
  Forall (fun v => esize (c_type c) v = value_bytes (c_type c) v /\ 0 <= value_bytes (c_type c) v < 2147483648) (c_values c) ->
  leaf_at (c_name c) (c_type c) (c_values c) l -> right_leaf c (leaf_seen l).
Proof.
  intros CT SZ (L1 & L2). pose proof (longer_max _ _ SZ) as M. unfold lasts in L2. unfold right_leaf, longest_entry.
  destruct (c_type c) as [p| |t|n t]; cbn [leaf_st leaf_new] in L1.
  - rewrite prim_letter in L1. injection L1 as <-. pose proof (prim_bytes p) as (PB & B). cbn. rewrite to_i32_id, PB by (red; rewrite ?PB; lia). auto 10.
  - destruct L1 as (len & b & _ & _ & ->). destruct (L2 eq_refl) as (A1 & A2). cbn [lf_t lf_b tl_len] in A1, A2. subst len b. rewrite !M by lia.
    cbn [leaf_seen lf_t tleaf_seen tl_named named_seen n_name n_title new_named lf_kind lf_a lf_b tl_len].
    set (x := fold_right Z.max 0 _). pose proof (max_nonneg (map (value_bytes TString) (c_values c))) as N. fold x in N.
    destruct (Z.eqb_spec (Z.max 1 x) 0); [lia|]. rewrite Z.max_r with (n := 0) by lia. auto.
  - injection L1 as <-. cbn. auto.
  - destruct t as [p| | |]; cbn [col_ty] in CT; try contradiction.
    rewrite to_i32_id in L1 by (red; lia). destruct (Z.eqb_spec (Z.of_nat n) 0); [lia|]. rewrite prim_letter in L1.
    destruct (Z.ltb_spec (Z.of_nat n) 0); [lia|]. injection L1 as <-. pose proof (prim_bytes p) as (PB & B).
    cbn [leaf_seen lf_t tleaf_seen tl_named named_seen n_name n_title new_named lf_kind lf_a lf_b tl_len tl_etype tl_unsigned].
    destruct (Z.eqb_spec (Z.of_nat n) 0); [lia|]. repeat (split; [reflexivity|]). split; [|repeat split; reflexivity].
    intros Q. cbn [size_of]. rewrite PB, to_i32_id by (red; nia). rewrite Z.mul_comm. apply Z.quot_mul. lia.
Qed.
Lemma total_id {A} (g : A -> Z) l : total (fun z => z) (map g l) = total g l.
Proof. induction l as [|a l IH]; [reflexivity|]. cbn [map total]. now rewrite IH. Qed.
Lemma total_part {A} (g : A -> Z) l a : Forall (fun x => 0 <= g x) l -> In a l -> g a <= total g l.
Proof.
  induction 1 as [|x l H F IH]; intros I; [contradiction|]. cbn [total].
  assert (0 <= total g l) by (clear - F; induction F; cbn [total]; lia). destruct I as [->|I]; [lia|]. specialize (IH I). lia.
Qed.
Lemma tsz s : zlen s < 2147483648 -> 0 <= tstring_sizeof s.
Proof. intros H. pose proof (zlen_nonneg s). unfold tstring_sizeof. rewrite to_i32_id by (red; lia). destruct (_ <? _); lia. Qed.
Lemma done_small path nm tn t recs ds : path_ok path -> forall i d, dones_ok path nm tn t recs i ds -> In d ds -> d_nbytes nm tn t d <= kStartBigFile.
Proof.
  intros P. induction ds as [|a ds IH]; intros i d H I; [contradiction|]. destruct H as (H1 & _ & H2 & _ & H3).
  destruct I as [->|I]; [|exact (IH _ _ H3 I)]. destruct H1 as (pre & post & _ & E). pose proof (E0_pos path P).
  pose proof (rsize_nonneg pre). lia.
Qed.

Lemma column_listed path recs tn c m w : path_ok path -> column_ok tn c ->
  TreeOps.finished path tn recs (mkCS (c_name c) (c_type c) (map Some (c_values c))) (taken m (map Some (c_values c))) w ->
  cut_up (mkCS (c_name c) (c_type c) (map Some (c_values c))) w -> listed tn c (col_branch w).
Proof.
  intros P (CT & _ & LN & HT) (ds & E1 & E2 & E3 & CC) CU. cbn [cs_name cs_ty cs_it] in *.
  assert (W : Forall (wt (c_type c)) (c_values c)).
  { eapply Forall_impl; [|exact HT]. intros v Hv. apply has_type_wt. exact Hv. }
  assert (CT' : col_ty (c_type c)). { destruct (c_type c) as [p| |t|n t]; cbn in *; auto; destruct t; auto. lia. }
  destruct (CU _ eq_refl CT' W) as (U1 & U2 & _ & UZ & LF). cbn [cs_name cs_ty] in U1, U2, LF.
  assert (SZ : Forall (fun v => esize (c_type c) v = value_bytes (c_type c) v) (c_values c)).
  { eapply Forall_impl; [|exact HT]. intros v. apply value_bytes_ok. exact CT. }
  rewrite (cut_ext _ (value_bytes (c_type c))) in U1, U2 by exact SZ. fold (in_baskets c) in U1, U2.
  destruct CC as (_ & _ & _ & (mb & tot & en & E & EN & _) & DO & _). rewrite E in U1. cbn [ccore b_entry] in U1. rewrite EN in U1.
  assert (ED : d_entry ds = entries_before 0 (map d_vals ds)).
  { rewrite entries_seq, map_length. unfold d_entry. apply map_ext. intros k. unfold d_all. rewrite firstn_map, <- flat_map_concat_map. reflexivity. }
  assert (DA : d_all ds = concat (map d_vals ds)) by apply flat_map_concat_map.
  assert (EV : d_all ds = c_values c).
  { rewrite ED in U1. assert (L : last (entries_before 0 (map d_vals ds)) 0 = last (entries_before 0 (in_baskets c)) 0) by now rewrite U1.
    rewrite !last_entry, <- DA in L. unfold in_baskets in L. rewrite cut_concat in L. cbn [app] in L.
    rewrite <- E1, taken_plain in *. rewrite !zlen_def in L. rewrite firstn_length in L. apply firstn_all2. lia. }
  assert (EP : map d_vals ds = in_baskets c).
  { rewrite ED in U1. apply (entries_inj _ _ 0 U1). rewrite <- DA, EV. unfold in_baskets. rewrite cut_concat. reflexivity. }
  unfold listed. unfold col_branch. cbn [br_core]. rewrite E. cbn [ccore b_entry b_bytes]. split; [rewrite EN, ED, EP; reflexivity|].
  assert (BB : map (d_nbytes (c_name c) tn (c_type c)) ds = map (basket_bytes tn c) (in_baskets c)).
  2:{ assert (VS : Forall (fun v => value_bytes (c_type c) v < 2147483648) (c_values c)).
      2:{ split; [exact BB|]. split; [exact U2|]. split; [|split; [exact VS|]].
          2:{ exists (leaf_seen (wc_leaf w)). split; [reflexivity|]. apply leaf_right; [exact CT'| |exact LF].
              rewrite Forall_forall in *. intros v Iv. pose proof (SZ v Iv) as Q. specialize (VS v Iv). pose proof (zlen_nonneg (ent (c_type c) v)) as Q0.
              unfold esize in *. lia. }
          unfold counted. rewrite E in UZ. cbn [ccore b_zip b_bytes] in UZ. cbv zeta. cbn [br_core].
        cbn [bcore_seen ccore b_entries b_entrynum b_first b_wb b_tot b_zip]. rewrite UZ, BB, total_id, EV, <- EP, zlen_map. repeat split; reflexivity. }
      apply Forall_forall. intros v Iv. rewrite <- EV in Iv. unfold d_all in Iv. apply in_flat_map in Iv as (d & I1 & I2).
        pose proof (done_small _ _ _ _ _ _ P _ _ DO I1) as SM. unfold kStartBigFile in SM.
        rewrite Forall_forall in HT, SZ. assert (Iv' : In v (c_values c)) by (rewrite <- EV; apply in_flat_map; exists d; auto).
        rewrite <- (SZ v Iv'). pose proof (total_part (esize (c_type c)) (d_vals d) v) as TP. rewrite total_ents in TP.
        unfold d_nbytes, payload in SM. rewrite zlen_app in SM. pose proof (zlen_nonneg (trailer (bkl (c_name c) tn) (c_type c) (d_vals d))).
        pose proof (zlen_nonneg (c_name c)). pose proof (zlen_nonneg tn). pose proof (tsz (c_name c) ltac:(lia)). pose proof (tsz tn ltac:(lia)). unfold bkl at 1, key_len_for in SM.
        change (beqb (bs "TBasket") (bs "TBasket")) with true in SM. change (tstring_sizeof (bs "TBasket")) with 8 in SM. cbv iota in SM.
        assert (esize (c_type c) v <= zlen (ents (c_type c) (d_vals d))).
        { apply TP; [|exact I2]. apply Forall_forall. intros x _. apply zlen_nonneg. }
        lia. }
  rewrite <- EP, map_map. apply map_ext_in. intros d I.
  assert (Q : Forall (has_type (c_type c)) (d_vals d)).
  { rewrite Forall_forall in *. intros v J. apply HT. rewrite <- EV. unfold d_all. apply in_flat_map. exists d. auto. }
  pose proof (zlen_nonneg (c_name c)). pose proof (zlen_nonneg tn).
  unfold d_nbytes, payload, trailer, basket_bytes, bkl, key_len_for. rewrite zlen_app, (column_bytes_ok _ _ CT Q), !string_size_ok by lia.
  change (beqb (bs "TBasket") (bs "TBasket")) with true. change (tstring_sizeof (bs "TBasket")) with 8. cbv iota.
  destruct (c_type c) as [p| |t|n t]; cbn [vsize].
  - rewrite (@zlen_nil Z). lia.
  - rewrite !zlen_app, ColFwd.zlen_flat_be4, ColFwd.starts_zlen, !zlen_be. lia.
  - rewrite !zlen_app, ColFwd.zlen_flat_be4, ColFwd.starts_zlen, !zlen_be. lia.
  - rewrite (@zlen_nil Z). lia.
Qed.

Section Whole.
Variables (path : bytes) (ts : list table) (es : list (list (nat * event))) (f fo : file).
Hypotheses (F : SpecTree.finished path ts es f) (S : short_path path) (O : open_file (f_disk f) = Ok fo).

Lemma keys_listed : Forall2 (fun t k => exists r, key_object (f_disk f) k = Ok (OTree r) /\
    t_tot r = total column_bytes (columns (tb_setup t)) /\ t_zip r = 0 /\ Forall2 (listed (tb_name t)) (columns (tb_setup t)) (t_branches r))
  ts (d_keys (f_dir fo)).
Proof.
  destruct (finished_parted _ _ _ _ F) as (P & T & NB & kcs & sis & recs & log & sis' & sbuf & CS & PT). specialize (NB S).
  destruct (w_frame path ts es f fo kcs sis recs log sis' sbuf P NB CS O) as (EF & _).
  destruct (w_segs path ts es f kcs sis recs log sis' sbuf P CS) as (_ & _ & SG & _).
  destruct (w_sizes path ts es f kcs sis recs log sis' sbuf P CS) as (Z0 & Z1 & Z2 & Z3 & Z4 & _).
  assert (HD : zlen (f_disk f) < 2 ^ 63) by lia.
  assert (DK : d_keys (f_dir fo) = map key_listed (map fst kcs)) by (rewrite EF; reflexivity). rewrite DK.
  pose proof (pt_st _ _ _ _ _ PT) as F2. pose proof (pt_cut _ _ _ _ _ PT) as FC. clear - P T SG HD F2 FC. revert kcs F2 FC.
  induction ts as [|t l IH]; intros kcs F2 FC; inversion F2 as [|a kc b kcs' SK F2' E1 E2]; subst; [constructor|].
  inversion FC as [|a kc' b kcs2 CK FC' E1 E2]; subst. inversion T as [|? ? WT T']; subst. cbn [map]. constructor; [|exact (IH T' kcs' F2' FC')].
  destruct (table_placed path recs (f_disk f) (calls t) kc P SG HD (table_tprog _ WT) SK) as (r & R1 & R2 & _ & _ & _ & _ & _ & _ & TT & TZ).
  exists r. split; [exact R1|]. rewrite R2. destruct SK as (stot & (cy & e & buf & m & _ & _ & _ & _ & _ & _ & _ & FF) & _).
  change (tp_name (calls t)) with (tb_name t) in FF. rewrite cols_of_calls in FF, CK, TT. destruct WT as (_ & _ & WC).
  assert (LL : Forall2 (listed (tb_name t)) (columns (tb_setup t)) (map col_branch (snd kc))).
  2:{ split; [|split; [exact TZ|exact LL]]. rewrite TT; clear - WC LL.
      - revert LL. generalize (map col_branch (snd kc)). induction WC as [|c cs (CT & _ & _ & HT) _ IH]; intros bs0 LL; inversion LL as [|? ? ? ? (_ & _ & _ & _ & SM & _) LL']; subst; [reflexivity|].
        cbn [map total]. rewrite (IH _ LL'). f_equal. unfold still, column_bytes. cbn [cs_ty cs_it]. rewrite somes_map. apply total_ext.
        rewrite Forall_forall in *. intros v Iv. unfold isize, esize. rewrite (value_bytes_ok _ _ CT (HT v Iv)). apply to_i32_id.
        specialize (SM v Iv). pose proof (zlen_nonneg (ent (c_type c) v)) as Q. rewrite (value_bytes_ok _ _ CT (HT v Iv)) in Q. red. lia.
      - clear - WC. induction WC as [|c cs (CT & _ & _ & HT) _ IH]; cbn [map]; constructor; [|exact IH].
        exists (c_values c). split; [reflexivity|]. cbn [cs_ty]. split.
        + destruct (c_type c) as [p| |t0|n t0]; cbn in *; auto; destruct t0; auto. lia.
        + eapply Forall_impl; [|exact HT]. intros v Hv. apply has_type_wt. exact Hv. }
  clear - P FF CK WC.
  revert FF CK. generalize (snd kc). induction WC as [|c cs WCc _ IH]; intros ws FF CK; inversion FF; subst; [constructor|].
  inversion CK; subst. cbn [map]. constructor; [|apply IH; assumption].
  eapply column_listed; eassumption.
Qed.
End Whole.

(** The number of baskets is limited, whatever the size of the file. *)
Lemma trees_few db ts : Forall table_ok ts -> forall f f' es, write_trees db (map calls ts) f = (f', Ok es) ->
  Forall (fun t => Forall (fun c => zlen (in_baskets c) <= 32767 /\
    (Forall (fun v => value_bytes (c_type c) v < 2147483648) (c_values c) -> all_positions_fit c)) (columns (tb_setup t))) ts.
Proof.
  induction 1 as [|t ts T _ IH]; intros f f' es H; [constructor|]. cbn [map write_trees] in H.
  apply fbind_inv in H as (f1 & e & H1 & H). apply fbind_inv in H as (f2 & es2 & H2 & H). constructor; [|exact (IH _ _ _ H2)].
  unfold write_one in H1. apply fbind_inv in H1 as (g1 & w & HB & H1). apply flift_inv in HB as [-> HB]. apply fbind_inv in H1 as (g2 & w' & HW & _).
  pose proof (table_tprog _ T) as (_ & TC).
  assert (CT : Forall (fun s => col_ty (cs_ty s)) (cols_of (tp_ops (calls t)))).
  { eapply Forall_impl; [|exact TC]. intros s (X & _). exact X. }
  destruct (build_ok _ _ _ CT HB [] eq_refl) as (_ & _ & _ & _ & cs & B6 & B7). cbn [wtree_new wt_cols app] in B6.
  pose proof (tree_cut db _ w f g2 w' ltac:(rewrite B6; exact B7) HW) as U. rewrite cols_of_calls in U. destruct T as (_ & _ & T).
  clear - U T. revert U. generalize (wt_cols w'). induction T as [|c cs (CT & _ & _ & HT) _ IH]; intros ws U; inversion U as [|? w ? ws' CU U' ]; subst; [constructor|].
  constructor; [|exact (IH _ U')].
  assert (W : Forall (wt (c_type c)) (c_values c)).
  { eapply Forall_impl; [|exact HT]. intros v Hv. apply has_type_wt. exact Hv. }
  assert (CT' : col_ty (c_type c)). { destruct (c_type c) as [p| |t0|n t0]; cbn in *; auto; destruct t0; auto. lia. }
  destruct (CU _ eq_refl CT' W) as (_ & U2 & U3 & _). cbn [cs_ty] in U2, U3.
  assert (EV : Forall (fun v => esize (c_type c) v = value_bytes (c_type c) v) (c_values c)).
  { eapply Forall_impl; [|exact HT]. intros v. apply value_bytes_ok. exact CT. }
  assert (EC : cut (esize (c_type c)) [] (c_values c) = in_baskets c) by (apply cut_ext; exact EV).
  rewrite EC in U2, U3. split; [exact U2|]. intros SM.
  assert (X : vsize (c_type c) = true -> Forall (fun p => positions_fit 1000 0 0 (map (value_bytes (c_type c)) p)) (in_baskets c)).
  { intros V. rewrite Forall_forall in *. intros p Hp. apply slots_positions.
    rewrite <- (map_ext_in (isize (c_type c))); [exact (U3 p Hp V)|]. intros v Hv. pose proof (in_baskets_in _ _ _ Hp Hv) as Iv.
    unfold isize. rewrite (EV v Iv). apply to_i32_id. specialize (SM v Iv). pose proof (EV v Iv) as E. unfold esize in E.
    pose proof (zlen_nonneg (ent (c_type c) v)). red. lia. }
  unfold all_positions_fit. destruct (c_type c); try exact I; apply X; reflexivity.
Qed.
