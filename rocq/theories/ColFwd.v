(** Writing columns succeeds: the same steps as in ColOps and TreeOps, from the room
    that is left in the file instead of from the outcome. *)
From Verif Require Export TreeOps.
From Verif Require SpecRoom.
From Verif Require Import SlotFacts.

(** ** Lengths *)
Lemma zlen_flat_be4 l : zlen (flat_map (be 4) l) = 4 * zlen l.
Proof. induction l as [|a l IH]; [reflexivity|]. cbn [flat_map]. rewrite zlen_app, zlen_cons, IH, zlen_be. lia. Qed.

Lemma starts_zlen p t vs : zlen (starts p t vs) = zlen vs.
Proof. rewrite !zlen_def, starts_length. reflexivity. Qed.

Lemma payload_le name tn t vs : zlen (payload name tn t vs) <= zlen (ents t vs) + 4 * zlen vs + 8.
Proof.
  unfold payload, trailer. rewrite zlen_app. pose proof (zlen_nonneg vs). destruct (vsize t).
  - rewrite !zlen_app, !zlen_be, zlen_flat_be4, starts_zlen. lia.
  - rewrite (@zlen_nil Z). lia.
Qed.

Lemma lay_fhend path keys sis recs f : lay path keys sis recs f -> fh_end (f_hdr f) = E0 path + rsize recs.
Proof. intros (log & -> & _). reflexivity. Qed.

Lemma lay_len path keys sis recs f : path_ok path -> lay path keys sis recs f -> E0 path + rsize recs <= kStartBigFile ->
  zlen (f_disk f) <= kStartBigFile.
Proof.
  intros P (log & -> & L) H. destruct L as [_ L]. unfold f_disk. cbn [lay_file f_io]. rewrite L.
  rewrite zlen_app. pose proof (E0_pos path P).
  destruct (hdr0_ok path P) as [H1 H2].
  rewrite base_len; [|exact P|exact H1|exact H2|apply (dir0_ok path [] 0 0); [exact P|rt_side|rt_side]|reflexivity].
  destruct recs as [|r recs]; [cbn [tail]; rewrite (@zlen_nil Z); unfold kStartBigFile; lia|].
  unfold tail. rewrite zlen_app, zlen_repeat. unfold rsize in *. unfold kStartBigFile in *. lia.
Qed.

(** ** The offsets of a basket *)
Definition esz (t : ty) (v : val) : Z := zlen (ent t v).
Definition places_are (t : ty) (cur : list val) (wb : wbasket) : Prop := vsize t = true ->
  zlen (bk_offsets (wb_basket wb)) = fst (slots_after 1000 1000 0 (map (esz t) cur)) /\
  bk_nevsize (wb_basket wb) = snd (slots_after 1000 1000 0 (map (esz t) cur)).

Lemma list_set_fwd l i x : 0 <= i < zlen l -> exists l', list_set l i x = Ok l' /\ zlen l' = zlen l.
Proof.
  intros H. unfold list_set. destruct (Z.leb_spec 0 i); [|lia]. destruct (Z.ltb_spec i (zlen l)); [|lia]. cbn [andb].
  eexists. split; [reflexivity|]. rewrite !zlen_def in *. rewrite app_length, firstn_length. cbn [length]. rewrite skipn_length. lia.
Qed.

Lemma update_fwd name tn t cycle cur wb sz v : binv name tn t cycle cur wb -> places_are t cur wb ->
  (vsize t = true -> slots_ok 1000 1000 0 (map (esz t) (cur ++ [v]))) ->
  exists b, basket_update (wb_basket wb) sz = Ok b /\
    forall s, places_are t (cur ++ [v]) (mkWB (if bk_nevsize b <? esz t v then bk_set_size b (esz t v) else b) s).
Proof.
  intros (ns & offs & -> & NS & O) M E. unfold places_are in *. cbn [wb_basket bk_offsets bk_nevsize] in *.
  pose proof (zlen_nonneg cur). unfold basket_update. cbn [wb_basket bk_key k_keylen bk_offsets bk_nevsize bk_nevbuf].
  destruct (vsize t) eqn:V.
  - destruct (M eq_refl) as (M1 & M2). specialize (E eq_refl). destruct O as (O1 & O2 & O3). destruct offs as [|o0 offs]; [congruence|].
    set (os := o0 :: offs) in *. clear M.
    rewrite map_app in E |- *. apply slots_app in E as (_ & E). rewrite after_app, zlen_map, Z.add_0_l in *.
    destruct (after_big (map (esz t) cur) 1000 1000 0) as (G1 & G2); [lia|lia|].
    destruct (slots_after 1000 1000 0 (map (esz t) cur)) as [S A]. cbn [fst snd map slots_ok slots_after] in *. destruct E as (E & _).
    rewrite M2. set (b0 := if A <=? zlen cur + 1 then _ else _).
    assert (B0 : zlen (bk_offsets b0) = fst (grow S A (zlen cur)) /\ bk_nevsize b0 = snd (grow S A (zlen cur)) /\ bk_nevbuf b0 = zlen cur).
    { unfold b0, grow. destruct (A <=? zlen cur + 1); cbn [bk_set_offsets bk_set_size bk_offsets bk_nevbuf bk_nevsize fst snd]; [|auto].
      rewrite zlen_app, zlen_repeat, M1. destruct (Z.ltb_spec 10 (2 * A)); [|lia]. split; [lia|auto]. }
    destruct B0 as (B1 & B2 & B3).
    destruct (list_set_fwd (bk_offsets b0) (bk_nevbuf b0) (to_i32 (sz + bkl name tn)) ltac:(lia)) as (o & HO & LO).
    rewrite HO. cbn [rbind]. eexists. split; [reflexivity|].
    intros s _. cbn [bk_set_nev bk_set_offsets bk_nevsize]. rewrite B2.
    destruct (Z.ltb_spec (snd (grow S A (zlen cur))) (esz t v)); cbn [wb_basket bk_set_size bk_set_nev bk_set_offsets bk_nevsize bk_offsets]; rewrite LO; lia.
  - subst offs. cbn [rbind]. eexists. split; [reflexivity|]. intros s X; discriminate X.
Qed.

(** ** Flushing and opening baskets *)
Section Col.
Variables (path name tn : bytes) (t : ty).
Hypotheses (C : col_ty t) (P : path_ok path) (N : names_ok name tn (bs "TBasket")).

Definition used (c : wcol) : Z := fold_right Z.add 0 (b_bytes (wc_core c)).
Lemma sum_app l m : fold_right Z.add 0 (l ++ m) = fold_right Z.add 0 l + fold_right Z.add 0 m.
Proof. induction l as [|a l IH]; cbn [app fold_right]; lia. Qed.

Lemma flush_fwd recs ds cur c f keys sis :
  let e := E0 path + rsize recs in
  lay path keys sis recs f -> col_gen path name tn t recs ds cur c ->
  e + (bkl name tn + zlen (payload name tn t cur)) <= kStartBigFile ->
  exists f' c' ns, let r := brec name tn t (zlen ds + 1) e ns cur in
    flush c f = (f', Ok c') /\
    lay path keys sis (recs ++ [r]) f' /\ wc_it c' = wc_it c /\
    col_core path name tn t (recs ++ [r]) (ds ++ [mkD e ns cur]) (zlen (d_all ds ++ cur)) c' /\
    rsize (recs ++ [r]) = rsize recs + (bkl name tn + zlen (payload name tn t cur)).
Proof using C P N.
  intros e L G BD. pose proof G as ((H1 & H2 & H3 & (mb & tot & en & E & H4 & H5 & H6) & H7 & H8) & HD & HW & wb & HB & B).
  pose proof (zlen_nonneg ds) as Hz. pose proof (E0_pos path P) as HE. pose proof (rsize_nonneg recs) as HR.
  assert (IC : is_i16 (zlen ds + 1)) by (red; lia).
  destruct (basket_fwd path keys sis recs f name tn t (zlen ds + 1) cur wb P L N IC B BD) as (ns & f' & wb' & NS & HBW & L').
  fold e in HBW, L'.
  assert (HF : exists c', flush c f = (f', Ok c')).
  { unfold flush. rewrite HB. unfold fbind at 1. rewrite HBW. cbn [fst snd].
    unfold bkey, mk_key. cbn [k_keylen k_objlen]. fold (bkl name tn).
    pose proof (bkl_bounds _ _ N). pose proof (zlen_nonneg (payload name tn t cur)). unfold kStartBigFile in BD.
    unfold fbind at 1, flift at 1. rewrite add_i32_ok by (red; unfold e in *; lia). eexists. reflexivity. }
  destruct HF as (c' & HF).
  assert (RS : rsize (recs ++ [brec name tn t (zlen ds + 1) e ns cur]) = rsize recs + (bkl name tn + zlen (payload name tn t cur))).
  { rewrite rsize_snoc, brec_len; auto. unfold e; lia. }
  assert (D : zlen (f_disk f') <= kStartBigFile).
  { eapply lay_len; [exact P|exact L'|]. rewrite RS. unfold e in BD. lia. }
  destruct (flush_ok path name tn t recs ds cur c f f' c' keys sis C P N L G HF D) as (ns' & L2 & I2 & CC & _).
  fold e in L2, CC.
  exists f', c', ns'. cbv zeta. split; [exact HF|]. split; [exact L2|]. split; [exact I2|]. split; [exact CC|].
  rewrite rsize_snoc, brec_len; auto. unfold e; lia.
Qed.

Lemma create_fwd recs ds c f keys sis :
  lay path keys sis recs f -> E0 path + rsize recs <= kStartBigFile ->
  col_core path name tn t recs ds (zlen (d_all ds)) c -> zlen ds <= 32766 ->
  exists c', create_new_basket tn c f = (f, Ok c') /\ col_gen path name tn t recs ds [] c' /\ wc_it c' = wc_it c /\
    b_bytes (wc_core c') = b_bytes (wc_core c) /\
    forall wb, wc_basket c' = Some wb -> places_are t [] wb.
Proof using C P N.
  intros L HE HC HD. pose proof HC as (H1 & H2 & H3 & (mb & tot & en & E & H4 & H5 & H6) & H7 & H8).
  pose proof (zlen_nonneg ds).
  assert (X : exists c', create_new_basket tn c f = (f, Ok c') /\ b_bytes (wc_core c') = b_bytes (wc_core c) /\
     forall wb, wc_basket c' = Some wb -> places_are t [] wb).
  { unfold create_new_basket. rewrite E. cbn [ccore b_wb b_bsize b_eol b_maxb b_entrynum b_entries b_tot b_zip b_bytes b_entry b_seek].
    rewrite to_i16_id by (red; lia). destruct (Z.ltb_spec (zlen ds + 1) 32768); [|lia]. cbn [negb].
    eexists. split; [reflexivity|]. split; [reflexivity|].
    cbn [wc_basket]. intros wb W. injection W as <-. unfold places_are, basket_new. cbn [wb_basket bk_offsets bk_nevsize].
    unfold eol_for. intros ->. rewrite zlen_repeat. split; reflexivity. }
  destruct X as (c' & HX & EB & HO).
  destruct (create_ok path name tn t recs ds c f f c' keys sis P L HE HC ltac:(lia) HX) as (_ & G & I).
  exists c'. auto.
Qed.

(** A column that has taken [vals]: every basket written so far is at least half full,
    and the table of positions is as SpecRoom.v says. *)
Definition big_done (d : wdone) : Prop := 16384 <= zlen (ents t (d_vals d)).
Definition split_up (vals : list val) (ds : list wdone) (cur : list val) : Prop :=
  forall rest, SpecRoom.cut (esz t) [] (vals ++ rest) = map d_vals ds ++ SpecRoom.cut (esz t) cur rest.
Definition col_p (recs : list bytes) (vals : list val) (c : wcol) : Prop :=
  exists ds cur, vals = d_all ds ++ cur /\ zlen (ents t cur) < 32768 /\ col_gen path name tn t recs ds cur c /\
    (Forall big_done ds /\ split_up vals ds cur) /\
    forall wb, wc_basket c = Some wb -> places_are t cur wb.

(** What the baskets of a column take. *)
Definition cost (vals : list val) : Z :=
  zlen (ents t vals) + 4 * zlen vals + (bkl name tn + 8) * (zlen (ents t vals) / 16384 + 1).

Lemma cost_app a b : cost a <= cost (a ++ b).
Proof using N.
  clear C P. unfold cost. rewrite ents_app, !zlen_app. pose proof (zlen_nonneg (ents t b)). pose proof (zlen_nonneg b).
  pose proof (bkl_bounds _ _ N).
  pose proof (Z.div_le_mono (zlen (ents t a)) (zlen (ents t a) + zlen (ents t b)) 16384 ltac:(lia) ltac:(lia)). nia.
Qed.

Lemma total_ents l : SpecRoom.total (esz t) l = zlen (ents t l).
Proof using. clear C P N. induction l as [|v l IH]; [reflexivity|]. unfold ents in *. cbn [SpecRoom.total flat_map]. rewrite zlen_app, IH. reflexivity. Qed.
Lemma cut_more cur v rest : SpecRoom.cut (esz t) cur (v :: rest) =
  if 32768 <=? zlen (ents t (cur ++ [v])) + esz t v then (cur ++ [v]) :: SpecRoom.cut (esz t) [] rest else SpecRoom.cut (esz t) (cur ++ [v]) rest.
Proof using. clear C P N. cbn [SpecRoom.cut]. now rewrite total_ents. Qed.
Lemma cut_pos cur rest : 1 <= zlen (SpecRoom.cut (esz t) cur rest).
Proof using.
  clear C P N. revert cur. induction rest as [|v r IH]; intros cur; [reflexivity|]. rewrite cut_more.
  destruct (32768 <=? _); [rewrite zlen_cons; specialize (IH []); lia|apply IH].
Qed.

Lemma dones_sum ds : Forall big_done ds ->
  16384 * zlen ds <= zlen (ents t (d_all ds)) /\
  fold_right Z.add 0 (map (d_nbytes name tn t) ds) <=
    zlen (ents t (d_all ds)) + 4 * zlen (d_all ds) + (bkl name tn + 8) * zlen ds.
Proof using.
  clear C P N. induction 1 as [|d ds B _ [I1 I2]].
  { cbn [d_all flat_map map fold_right ents]. rewrite (@zlen_nil wdone), (@zlen_nil Z), (@zlen_nil val). lia. }
  unfold d_all in *. cbn [flat_map map fold_right]. rewrite ents_app, !zlen_app, zlen_cons.
  unfold big_done in B. unfold d_nbytes at 1. pose proof (payload_le name tn t (d_vals d)).
  split; lia.
Qed.

Lemma col_used recs ds n c : col_core path name tn t recs ds n c ->
  used c = fold_right Z.add 0 (map (d_nbytes name tn t) ds).
Proof using. intros (_ & _ & _ & (mb & tot & en & E & _) & _). unfold used. rewrite E. reflexivity. Qed.

(** Room for what is being collected is room for the whole column. *)
Lemma room_le ds cur : Forall big_done ds ->
  fold_right Z.add 0 (map (d_nbytes name tn t) ds) + (bkl name tn + zlen (payload name tn t cur)) <= cost (d_all ds ++ cur).
Proof using N.
  clear C P. intros B. destruct (dones_sum ds B) as [H1 H2]. unfold cost. rewrite ents_app, !zlen_app.
  pose proof (payload_le name tn t cur). pose proof (bkl_bounds _ _ N). pose proof (zlen_nonneg (ents t cur)).
  assert (zlen ds <= (zlen (ents t (d_all ds)) + zlen (ents t cur)) / 16384) by (apply Z.div_le_lower_bound; lia).
  nia.
Qed.
Lemma dones_le ds cur : Forall big_done ds -> fold_right Z.add 0 (map (d_nbytes name tn t) ds) <= cost (d_all ds ++ cur).
Proof using N.
  intros B. pose proof (room_le ds cur B). pose proof (bkl_bounds _ _ N). pose proof (zlen_nonneg (payload name tn t cur)). lia.
Qed.
Lemma col_p_used recs vals c : col_p recs vals c -> used c <= cost vals.
Proof using N.
  intros (ds & cur & -> & _ & (G & _) & (B & _) & _). rewrite (col_used _ _ _ _ G). now apply dones_le.
Qed.

(** Every value can take its place. *)
Definition roomy (vals : list val) : Prop :=
  vsize t = true -> Forall (fun p => slots_ok 1000 1000 0 (map (esz t) p)) (SpecRoom.cut (esz t) [] vals).

Lemma cut_starts rest : forall cur, exists more others, SpecRoom.cut (esz t) cur rest = (cur ++ more) :: others.
Proof using.
  clear C P N. induction rest as [|v r IH]; intros cur; [exists [], []; now rewrite app_nil_r|]. rewrite cut_more. destruct (_ <=? _).
  - exists [v], (SpecRoom.cut (esz t) [] r). reflexivity.
  - destruct (IH (cur ++ [v])) as (m & o & ->). exists (v :: m), o. now rewrite <- app_assoc.
Qed.
Lemma roomy_cur vals ds cur v rest : split_up vals ds cur -> roomy (vals ++ v :: rest) -> vsize t = true ->
  slots_ok 1000 1000 0 (map (esz t) (cur ++ [v])).
Proof using.
  intros SU R V. specialize (R V). rewrite SU in R. apply Forall_app in R as [_ R]. rewrite cut_more in R. destruct (_ <=? _).
  - now inversion R.
  - destruct (cut_starts rest (cur ++ [v])) as (m & o & E). rewrite E in R. inversion R as [|? ? R1 _]; subst.
    rewrite map_app in R1. now apply slots_app in R1.
Qed.

Lemma write_entry_fwd keys sis recs vals c wb v rest f :
  lay path keys sis recs f -> col_p recs vals c -> wc_basket c = Some wb -> wt t v ->
  roomy (vals ++ v :: rest) -> zlen (SpecRoom.cut (esz t) [] (vals ++ v :: rest)) <= 32767 ->
  E0 path + rsize recs - used c + cost (vals ++ [v]) <= kStartBigFile ->
  exists f' c' n recs', write_entry tn c wb v f = (f', Ok (c', n)) /\ n = zlen (ent t v) /\
    grows recs recs' /\ lay path keys sis recs' f' /\ col_p recs' (vals ++ [v]) c' /\ wc_it c' = wc_it c /\
    rsize recs' - used c' = rsize recs - used c.
Proof using C P N.
  intros L (ds & cur & -> & HZ & (HC & HD & HW & wb0 & HB0 & B) & (BD & SU) & HO) HB W RM DL RS.
  rewrite HB in HB0. injection HB0 as <-. pose proof (HO wb HB) as OM. clear HO.
  pose proof HC as (H1 & H2 & H3 & (mb & tot & en & E & H4 & H5 & H6) & H7 & H8).
  rewrite SU, zlen_app, zlen_map, cut_more in DL.
  pose proof (roomy_cur _ _ _ _ _ SU RM) as RC. clear RM.
  rewrite <- app_assoc in RS.
  pose proof (col_used _ _ _ _ HC) as HU. rewrite HU in RS.
  pose proof (room_le ds (cur ++ [v]) BD) as RL.
  destruct (dones_sum ds BD) as [DS _].
  assert (DD : zlen ds <= 32766).
  { pose proof (cut_pos (cur ++ [v]) rest). destruct (32768 <=? _); [rewrite zlen_cons in DL; pose proof (cut_pos [] rest)|]; lia. }
  assert (LE : 1 <= zlen (ent t v)) by now apply ent_pos.
  assert (EE : ents t cur ++ ent t v = ents t (cur ++ [v])) by (rewrite ents_app; cbn [ents flat_map]; now rewrite app_nil_r).
  assert (LN : zlen (ents t (cur ++ [v])) - zlen (ents t cur) = zlen (ent t v)) by (rewrite <- EE, zlen_app; lia).
  pose proof (zlen_nonneg (ents t cur)) as Zc. pose proof (zlen_nonneg cur) as Zu.
  assert (EL : zlen (ent t v) < 2147483648).
  { assert (zlen (ents t (cur ++ [v])) <= zlen (payload name tn t (cur ++ [v]))) by (unfold payload; rewrite zlen_app; match goal with |- ?a <= ?a + zlen ?b => pose proof (zlen_nonneg b); lia end).
    pose proof (bkl_bounds _ _ N). pose proof (E0_pos path P). pose proof (rsize_nonneg recs).
    unfold kStartBigFile in RS. lia. }
  destruct (update_fwd name tn t (zlen ds + 1) cur wb (zlen (ents t cur)) v B OM RC) as (b & HUp & HB2).
  assert (EB : wb_buf wb = w_app (w_new 0) (ents t cur)) by (destruct B as (? & ? & -> & _); reflexivity).
  destruct (leaf_write_ent name (wc_leaf c) t v (w_app (w_new 0) (ents t cur)) C H3 W) as (l2 & E2 & L2).
  rewrite w_app_app, EE in E2.
  set (n0 := to_i32 (zlen (ents t (cur ++ [v])) - zlen (ents t cur))).
  assert (EN : n0 = zlen (ent t v)) by (unfold n0; rewrite LN; apply to_i32_id; red; lia).
  pose proof (update_ok _ _ _ _ _ _ v b N C HW B HZ HUp n0 (is_i32_cast _)) as B'.
  set (wb1 := mkWB _ _) in B'. pose proof (HB2 (w_app (w_new 0) (ents t (cur ++ [v])))) as OM1. unfold esz in OM1. rewrite <- EN in OM1. fold wb1 in OM1.
  set (c1 := mkWC t (bc_set (wc_core c) (b_wb (wc_core c)) (b_entrynum (wc_core c) + 1) (b_maxb (wc_core c)) (b_entries (wc_core c) + 1) (b_tot (wc_core c))
                 (b_zip (wc_core c)) (b_bytes (wc_core c)) (b_entry (wc_core c)) (b_seek (wc_core c))) (wc_elem c) l2 (wc_it c) (Some wb1)).
  assert (G : col_gen path name tn t recs ds (cur ++ [v]) c1).
  { split; [|split; [exact HD|split; [apply Forall_app; auto|eexists; split; [reflexivity|exact B']]]].
    unfold c1. split; [reflexivity|]. split; [exact H2|]. split; [exact L2|]. split; [|auto].
    cbn [wc_core]. rewrite E. exists mb, tot, en. split; [|split; [exact H4|split; [|exact H6]]].
    - unfold bc_set, ccore. cbn [b_wb b_entrynum b_maxb b_entries b_tot b_zip b_bytes b_entry b_seek b_named b_fill b_compress b_bsize b_eol b_iobits b_offset b_split b_first b_fname].
      rewrite zlen_app, zlen_cons, (@zlen_nil val), Z.add_0_r, Z.add_assoc. reflexivity.
    - rewrite zlen_app, zlen_cons, (@zlen_nil val). eapply Forall_impl; [|exact H5]. cbv beta; intros; lia. }
  assert (U1 : used c1 = used c) by reflexivity.
  assert (WE : write_entry tn c wb v f =
    (if b_bsize (wc_core c) <=? zlen (ents t (cur ++ [v])) + to_u64 n0 then
      c2 <-! flush c1 ;; c3 <-! create_new_basket tn c2 ;; fret (c3, n0) else fret (c1, n0)) f).
  { unfold write_entry. rewrite H1, EB. change (wp (w_app (w_new 0) (ents t cur))) with (ents t cur).
    unfold fbind at 1, flift at 1. rewrite HUp.
    unfold fbind at 1, flift at 1. rewrite E2. cbn [fst snd]. change (wp (w_app (w_new 0) (ents t (cur ++ [v])))) with (ents t (cur ++ [v])).
    fold n0. fold wb1. fold c1.
    assert (U : to_u64 n0 = n0) by (apply Z.mod_small; lia). rewrite U.
    destruct (Z.leb_spec (2 ^ 64) (zlen (ents t (cur ++ [v])) + n0)); [lia|]. reflexivity. }
  assert (BS : b_bsize (wc_core c) = 32768) by (rewrite E; reflexivity). rewrite WE, BS.
  assert (U : to_u64 n0 = n0) by (apply Z.mod_small; lia). rewrite U.
  destruct (Z.leb_spec 32768 (zlen (ents t (cur ++ [v])) + n0)) as [HF|HF].
  - destruct (flush_fwd recs ds (cur ++ [v]) c1 f keys sis L G ltac:(lia)) as (f2 & c2 & ns & HFl & L' & I' & CC & RR).
    set (d := mkD _ ns _) in CC. set (r := brec _ _ _ _ _ _ _) in *.
    assert (EA : d_all (ds ++ [d]) = d_all ds ++ cur ++ [v]) by now rewrite d_all_snoc.
    rewrite <- EA in CC.
    assert (BD2 : Forall big_done (ds ++ [d])).
    { apply Forall_app. split; [exact BD|]. constructor; [|constructor]. unfold big_done, d. cbn [d_vals]. lia. }
    destruct (create_fwd (recs ++ [r]) (ds ++ [d]) c2 f2 keys sis L' ltac:(lia) CC) as (c3 & HCr & G' & I2 & EB3 & HO3).
    { rewrite zlen_app, zlen_cons, (@zlen_nil wdone). unfold esz at 1 in DL. rewrite <- EN in DL.
      destruct (Z.leb_spec 32768 (zlen (ents t (cur ++ [v])) + n0)); [|lia]. rewrite zlen_cons in DL. pose proof (cut_pos [] rest). lia. }
    exists f2, c3, n0, (recs ++ [r]). split; [|split; [exact EN|split; [eexists; reflexivity|split; [exact L'|split; [|split]]]]].
    + unfold fbind at 1. rewrite HFl. unfold fbind at 1. rewrite HCr. reflexivity.
    + exists (ds ++ [d]), []. rewrite app_nil_r, EA. split; [now rewrite app_assoc|]. split; [reflexivity|]. split; [exact G'|].
      split; [split; [exact BD2|]|].
      { intros r0. rewrite <- !app_assoc. cbn [app]. rewrite app_assoc, SU, cut_more. unfold esz at 1. rewrite <- EN.
        destruct (Z.leb_spec 32768 (zlen (ents t (cur ++ [v])) + n0)); [|lia]. rewrite map_app, <- app_assoc. reflexivity. }
      intros wb3 X. exact (HO3 _ X).
    + rewrite I2, I'. reflexivity.
    + assert (used c3 = used c2) as -> by (unfold used; now rewrite EB3).
      rewrite (col_used _ _ _ _ CC). rewrite map_app, sum_app, HU. cbn [map fold_right]. rewrite RR.
      unfold d_nbytes at 2. cbn [d_vals d]. lia.
  - exists f, c1, n0, recs. split; [reflexivity|]. split; [exact EN|]. split; [apply grows_refl|]. split; [exact L|].
    split; [|split; [reflexivity|now rewrite U1]].
    exists ds, (cur ++ [v]). split; [now rewrite app_assoc|]. split; [lia|]. split; [exact G|]. split; [split; [exact BD|]|].
    { intros r0. rewrite <- !app_assoc. cbn [app]. rewrite app_assoc, SU, cut_more. unfold esz at 1. rewrite <- EN.
      destruct (Z.leb_spec 32768 (zlen (ents t (cur ++ [v])) + n0)); [lia|reflexivity]. }
    intros wb3 X. injection X as <-. exact OM1.
Qed.

(** A column not yet or already being written. *)
Definition col_pl (recs : list bytes) (vals : list val) (c : wcol) : Prop :=
  col_p recs vals c \/ (vals = [] /\ wc_basket c = None /\ col_core path name tn t recs [] 0 c).

Lemma cost_nonneg vals : 0 <= cost vals.
Proof using N.
  unfold cost. pose proof (bkl_bounds _ _ N). pose proof (zlen_nonneg (ents t vals)). pose proof (zlen_nonneg vals).
  pose proof (Z.div_pos (zlen (ents t vals)) 16384 ltac:(lia) ltac:(lia)). nia.
Qed.

Lemma wcol_write_fwd keys sis recs vals c rest f :
  lay path keys sis recs f -> col_pl recs vals c -> Forall (fun o => forall v, o = Some v -> wt t v) (wc_it c) ->
  roomy (vals ++ opt_list (hd None (wc_it c)) ++ rest) -> zlen (SpecRoom.cut (esz t) [] (vals ++ opt_list (hd None (wc_it c)) ++ rest)) <= 32767 ->
  E0 path + rsize recs - used c + cost (vals ++ opt_list (hd None (wc_it c))) <= kStartBigFile ->
  E0 path + rsize recs <= kStartBigFile ->
  exists f' c' r recs', wcol_write tn c f = (f', Ok (c', r)) /\
    r = option_map (fun v => zlen (ent t v)) (hd None (wc_it c)) /\
    grows recs recs' /\ lay path keys sis recs' f' /\ col_p recs' (vals ++ opt_list (hd None (wc_it c))) c' /\ wc_it c' = tl (wc_it c) /\
    rsize recs' - used c' = rsize recs - used c.
Proof using C P N.
  intros L HV HI RM DL RS RB. unfold wcol_write.
  assert (X : exists c1 wb, (match wc_basket c with None => create_new_basket tn c | Some _ => fret c end) f = (f, Ok c1) /\
     col_p recs vals c1 /\ wc_it c1 = wc_it c /\ used c1 = used c /\ wc_basket c1 = Some wb).
  { destruct HV as [HO|(-> & HN & HC)].
    - pose proof HO as (ds & cur & _ & _ & (_ & _ & _ & wb & HB & _) & _). exists c, wb. rewrite HB. auto.
    - rewrite HN. destruct (create_fwd recs [] c f keys sis L RB HC) as (c1 & H1 & G & I & EB & HO).
      { rewrite (@zlen_nil wdone). lia. }
      pose proof G as (_ & _ & _ & wb & HB & _). exists c1, wb. split; [exact H1|]. split; [|split; [exact I|split; [|exact HB]]].
      + exists [], []. split; [reflexivity|]. split; [reflexivity|]. split; [exact G|]. split; [split; [constructor|intros r0; reflexivity]|].
        intros wb' W. exact (HO _ W).
      + unfold used. now rewrite EB. }
  destruct X as (c1 & wb & X1 & X2 & X3 & X4 & X5). unfold fbind at 1. rewrite X1, X5, X3.
  set (c2 := mkWC _ _ _ _ _ _).
  assert (HO2 : col_p recs vals c2).
  { destruct X2 as (ds & cur & A1 & A2 & (A3 & A4 & A5 & wb' & A6 & A7) & A8 & A9).
    exists ds, cur. split; [exact A1|]. split; [exact A2|]. split; [|split; [exact A8|]].
    - split; [exact A3|]. split; [exact A4|]. split; [exact A5|]. exists wb'. split; [|exact A7]. rewrite <- A6. symmetry. exact X5.
    - intros wb0 Y. apply A9. rewrite X5. exact Y. }
  assert (U2 : used c2 = used c) by exact X4.
  destruct (hd None (wc_it c)) as [v|] eqn:EH; cbn [opt_list app] in *.
  - assert (W : wt t v).
    { destruct (wc_it c) as [|o it]; [discriminate|]. cbn in EH. subst o. inversion HI; auto. }
    destruct (write_entry_fwd keys sis recs vals c2 wb v rest f L HO2 eq_refl W RM DL ltac:(lia)) as (f' & c' & n & recs' & Y1 & -> & Y3 & Y4 & Y5 & Y6 & Y7).
    exists f', c', (Some (zlen (ent t v))), recs'. unfold fbind at 1. rewrite Y1. cbn [fst snd].
    split; [reflexivity|]. split; [reflexivity|]. split; [exact Y3|]. split; [exact Y4|]. split; [exact Y5|].
    split; [exact Y6|]. lia.
  - exists f, c2, None, recs. rewrite app_nil_r. split; [reflexivity|]. split; [reflexivity|]. split; [apply grows_refl|].
    split; [exact L|]. split; [exact HO2|]. split; [reflexivity|]. lia.
Qed.
End Col.
