(** The parts of a finished file. *)
From Verif Require Import Base RBuf Values Key Obj RObj TreeObj File FileLay FileOps FileClose FileOpen FileFinal Column ColRead ColOps ColBack TreeOps
  TreeWrite TreeSession StreamerDb Spec SpecTree SpecDamage SessFacts FileFacts DamageFacts BasketFacts PartFacts CrashFacts.

Lemma seg_same d d' p s : seg d p s -> 0 < zlen s -> untouched d d' p (zlen s) -> seg d' p s.
Proof.
  intros S NZ U. pose proof (untouched_long d d' p (zlen s) (seg_nonneg _ _ _ S) NZ U (seg_bound _ _ _ S)) as LD. pose proof (seg_nonneg _ _ _ S). pose proof (seg_bound _ _ _ S). pose proof (zlen_nonneg s). destruct S as (a & c & -> & LA).
  pose proof (zsub_mid a s c) as Z. rewrite LA in Z. rewrite (zsub_same _ d') in Z by (auto; lia).
  destruct (zsub_split d' p (zlen s)) as (a' & c' & E' & LA'); [lia|lia|lia|]. rewrite Z in E'. exists a', c'. auto.
Qed.

Lemma seg_zsub d p s : seg d p s -> zsub d p (zlen s) = s.
Proof. intros (a & c & -> & <-). apply zsub_mid. Qed.

Lemma combine_map {A B C} (g : A -> B) (h : A -> C) l : combine (map g l) (map h l) = map (fun a => (g a, h a)) l.
Proof. induction l as [|a l IH]; [reflexivity|]. cbn [map combine]. now rewrite IH. Qed.

Lemma dones_in path name tn t recs ds : forall i, dones_ok path name tn t recs i ds -> forall d, In d ds ->
  exists j, i <= j < i + zlen ds /\ at_rec path recs (d_seek d) (brec name tn t (j + 1) (d_seek d) (d_ns d) (d_vals d)) /\
    0 <= d_ns d < 2147483648 /\ d_seek d + d_nbytes name tn t d <= kStartBigFile /\ Forall (wt t) (d_vals d).
Proof.
  induction ds as [|d0 ds IH]; intros i O d I; [contradiction|]. destruct O as (O1 & O2 & O3 & O4 & O5). rewrite zlen_cons. pose proof (zlen_nonneg ds).
  destruct I as [<-|I].
  - exists i. split; [lia|]. auto.
  - destruct (IH (i + 1) O5 d I) as (j & J & R). exists j. split; [lia|exact R].
Qed.

Lemma column_placed path recs D p s vals c : path_ok path -> seg D (E0 path) (concat recs) -> zlen D < 2 ^ 63 ->
  cspec_ok (tp_name p) s -> TreeOps.finished path (tp_name p) recs s vals c ->
  forall q n, In (q, n) (wc_parts c) -> says_its_place D q n /\ 0 < n.
Proof.
  intros P SG HD (CT & NN & _) (ds & -> & L1 & _ & C1 & C2 & C3 & (mb & tot & en & E & _) & C5 & _) q n I.
  unfold wc_parts in I. rewrite E in I. cbn [ccore b_seek b_bytes] in I. rewrite combine_map in I. apply in_map_iff in I as (d & Q & I).
  injection Q as <- <-. destruct (dones_in _ _ _ _ _ _ _ C5 d I) as (j & J & AT & NS & BD & W).
  destruct (at_rec_seg D path recs P SG _ _ AT) as (SD & E100).
  assert (CY : is_i16 (j + 1)) by (red; lia).
  destruct (basket_back D (cs_name s) (tp_name p) (cs_ty s) (j + 1) (d_seek d) (d_ns d) (d_vals d) CT NN CY NS W E100 BD SD HD) as (B1 & B2).
  pose proof (brec_len (cs_name s) (tp_name p) (cs_ty s) (d_seek d) (j + 1) (d_ns d) (d_vals d) NN CY E100 BD) as BL.
  fold (d_nbytes (cs_name s) (tp_name p) (cs_ty s) d) in BL, B1.
  pose proof (bkl_bounds _ _ NN) as BB. pose proof (zlen_nonneg (payload (cs_name s) (tp_name p) (cs_ty s) (d_vals d))) as ZP.
  assert (DN : d_nbytes (cs_name s) (tp_name p) (cs_ty s) d = bkl (cs_name s) (tp_name p) + zlen (payload (cs_name s) (tp_name p) (cs_ty s) (d_vals d))) by reflexivity.
  unfold kStartBigFile in BD. split; [|lia]. split; [lia|]. split; [lia|]. intros bk HB.
  assert (Z : zsub D (d_seek d) (d_nbytes (cs_name s) (tp_name p) (cs_ty s) d) = brec (cs_name s) (tp_name p) (cs_ty s) (j + 1) (d_seek d) (d_ns d) (d_vals d)).
  { rewrite <- BL. now apply seg_zsub. }
  rewrite Z, B2 in HB. injection HB as <-. unfold bread. cbn [bk_key]. unfold bkey, key_seen, mk_key. cbn [k_seek k_nbytes k_keylen].
  fold (bkl (cs_name s) (tp_name p)). split; [reflexivity|]. split; [rewrite DN; reflexivity|]. lia.
Qed.

Definition seen_tree (name : bytes) (tot : Z) (m : nat) (cols : list wcol) : tree branch := tree_seen (wtree_full (t_add (tree0 name) tot (Z.of_nat m)) cols).
Lemma seen_branches name tot m cols : t_branches (seen_tree name tot m cols) = map col_branch cols.
Proof.
  unfold seen_tree. change (t_branches (tree_seen ?T)) with (map (fun ab => set_top (wbr_seen (snd ab))) (map col_wbr (number 0 cols))).
  rewrite map_map. generalize 0. induction cols as [|c cols IH]; intros i; [reflexivity|]. cbn [number map]. rewrite IH. reflexivity.
Qed.
Lemma col_branch_parts c : own_baskets (col_branch c) = wc_parts c /\ read_baskets (col_branch c) = wc_parts c.
Proof. split; reflexivity. Qed.
Lemma map_branch_parts cols : flat_map own_baskets (map col_branch cols) = all_parts cols.
Proof. induction cols as [|c cols IH]; [reflexivity|]. cbn [map flat_map]. unfold all_parts in *. cbn [flat_map]. rewrite IH. reflexivity. Qed.

Lemma table_placed path recs D p kc : path_ok path -> seg D (E0 path) (concat recs) -> zlen D < 2 ^ 63 ->
  tprog_ok p -> stored_cols path recs p kc ->
  let k := key_listed (fst kc) in
  exists r, key_object D k = Ok (OTree r) /\ t_branches r = map col_branch (snd kc) /\
    k_seek k = k_seek (fst kc) /\ k_nbytes k = k_nbytes (fst kc) /\
    0 <= k_seek k < 2 ^ 62 /\ 0 < k_nbytes k < 2 ^ 31 /\ 0 <= k_keylen k <= k_nbytes k /\
    (forall b, In b (t_branches r) -> forall q n, In (q, n) (read_baskets b) -> says_its_place D q n /\ 0 < n) /\
    tree_total (cols_of (tp_ops p)) (t_tot r) /\ t_zip r = 0.
Proof.
  intros P SG HD (_ & W) (tot & (cy & e & buf & m & K & KG & AT & EB & PA & MB & TK & F2) & TT). cbv zeta. destruct kc as [k cols]. cbn [fst snd] in *.
  destruct (at_rec_seg D path recs P SG e _ AT) as (SK & E100).
  assert (KB : k_buffer k = buf) by (rewrite K; reflexivity).
  assert (KE : k_seek k = e) by (rewrite K; reflexivity).
  assert (KN : k_nbytes k = k_keylen k + zlen buf) by (rewrite K; reflexivity).
  assert (KO : k_objlen k = zlen buf) by (rewrite K; reflexivity).
  assert (KC : k_class k = bs "TTree") by (rewrite K; reflexivity).
  destruct (key_good_hdr k KG) as (LH & _). pose proof (khdr_nonempty k (proj1 KG)) as NE.
  assert (KP : 0 < k_keylen k). { rewrite <- LH. rewrite zlen_def. destruct (khdr k); [congruence|cbn [length]; lia]. }
  assert (KL : key_listed k = key_seen k).
  { unfold key_listed, fix_class. change (k_class (key_seen k)) with (k_class k). rewrite KC. reflexivity. }
  clear K. unfold kStartBigFile in EB. pose proof (zlen_nonneg buf).
  exists (seen_tree (tp_name p) tot m cols). rewrite KL. split.
  - unfold key_object. rewrite key_bytes_ok; [|exact KG|congruence|congruence|lia| |exact HD].
    + cbn [rbind]. change (k_class (key_seen k)) with (k_class k). rewrite KC.
      change (negb (RObj.known (bs "TTree"))) with false. cbv iota.
      change (k_keylen (key_seen k)) with (k_keylen k). rewrite KB.
      pose proof (tree_buf_len _ _ _ TK MB ltac:(lia) ltac:(lia)) as B4.
      assert (exists n, S (length buf) = S (S (S n))) as (n & ->).
      { rewrite zlen_def in B4. destruct (length buf) as [|[|n]] eqn:E; try lia. now exists n. }
      apply (sim0_rrun _ _ _ _ _ _ (tree_sim n _ TK) MB); lia.
    + rewrite KE. unfold rec. rewrite KB. exact SK.
  - split; [apply seen_branches|]. split; [reflexivity|]. split; [reflexivity|].
    change (k_seek (key_seen k)) with (k_seek k). change (k_nbytes (key_seen k)) with (k_nbytes k). change (k_keylen (key_seen k)) with (k_keylen k).
    split; [lia|]. split; [lia|]. split; [lia|]. split; [|split; [exact TT|reflexivity]].
    rewrite seen_branches. intros b I q n J. apply in_map_iff in I as (c & <- & I). rewrite (proj2 (col_branch_parts c)) in J.
    assert (X : exists s, In s (cols_of (tp_ops p)) /\ TreeOps.finished path (tp_name p) recs s (taken (S m) (cs_it s)) c).
    { clear - F2 I. induction F2; [contradiction|]. destruct I as [<-|I]; [eexists; split; [left; reflexivity|eassumption]|].
      destruct (IHF2 I) as (s & S1 & S2). exists s. split; [now right|exact S2]. }
    destruct X as (s & S1 & S2). rewrite Forall_forall in W. exact (column_placed path recs D p s _ c P SG HD (W s S1) S2 q n J).
Qed.

(** ** A finished file *)
Lemma finished_parted path ts es f : SpecTree.finished path ts es f ->
  path_ok path /\ Forall table_ok ts /\ (short_path path -> nbname path <= 1000) /\
  exists kcs sis recs log sis' sbuf, closed_session real_db path (map calls ts) es (map fst kcs) sis recs log sis' sbuf f /\
    parted path (map calls ts) recs kcs (E0 path + rsize recs).
Proof.
  intros (U & T & N & S & D). destruct (user_path_ok path U) as [P SP]. split; [exact P|]. split; [exact T|]. split; [apply SP|].
  unfold session in S. rewrite (FileLay.create_ok path P) in S.
  apply fbind_inv in S as (f0 & [] & H0 & H). apply flift_inv in H0 as [-> _].
  apply fbind_inv in H as (f1 & es1 & H1 & H). apply fbind_inv in H as (f2 & [] & H2 & H). injection H as <- <-.
  assert (D1 : zlen (f_disk f1) <= kStartBigFile).
  { eapply Z.le_trans; [|exact D]. eapply mono_disk; [|exact H2]. mono. }
  assert (W : Forall tprog_ok (map calls ts)) by (apply Forall_map; eapply Forall_impl; [|exact T]; apply table_tprog).
  assert (Z0 : few (map tp_name ([] ++ map calls ts))) by (cbn [app]; rewrite map_map; exact N).
  assert (PT : parted path [] [] [] (fend (file0 path))).
  { constructor; [constructor|constructor|]. intros x. destruct (lay_end _ _ _ _ _ (lay_create path P)) as (-> & _). unfold rsize. cbn [concat flat_map].
    rewrite (@zlen_nil Z), Z.add_0_r. cbn [hits fold_right]. lia. }
  destruct (trees_parted real_db path _ P W [] [] [] [] [] [] _ _ _ (sess_create real_db path P) eq_refl PT H1 D1) as (kcs & sis & recs & S & PT1).
  cbn [app] in S, PT1.
  destruct (sess_closed real_db _ _ _ _ _ _ _ _ real_db_ok P Z0 S H2 D) as (log & sis' & sbuf & C).
  exists kcs, sis, recs, log, sis', sbuf. split; [exact C|]. destruct (lay_end _ _ _ _ _ (se_lay _ _ _ _ _ _ _ _ S)) as (E & _). now rewrite E in PT1.
Qed.

Lemma res_eq {A} (x y : A) (r : res A) : r = Ok x -> r = Ok y -> x = y.
Proof. intros -> H. now injection H. Qed.

Section Whole.
Variables (path : bytes) (ts : list table) (es : list (list (nat * event))) (f fo : file).
Variables (kcs : list (key * list wcol)) (sis : list sinfo) (recs : list bytes) (log : list (Z * bytes)) (sis' : list sinfo) (sbuf : bytes).
Hypothesis (P : path_ok path) (T : Forall table_ok ts) (NB : nbname path <= 1000)
  (CS : closed_session real_db path (map calls ts) es (map fst kcs) sis recs log sis' sbuf f)
  (PT : parted path (map calls ts) recs kcs (E0 path + rsize recs)) (O : open_file (f_disk f) = Ok fo).
Notation keys := (map fst kcs).
Notation e := (E0 path + rsize recs).
Notation kk := (kkey path keys e).
Notation e1 := (e + k_nbytes kk).
Notation ks := (skey sbuf e1).
Notation e2 := (e1 + k_nbytes ks).
Notation kf := (fkey path e2).
Notation h1 := (hdr1 path keys sbuf e).
Notation d1 := (dir1 path keys e).
Notation Fo D := (mkFile (IORead D) h1 (d_set_keys (dir_open path d1) (map key_listed keys)) [mkSeg (fh_end h1) kStartBigFile] (map sinfo_seen (rev sis')) []).

Lemma w_disk : f_disk f = disk_of (log ++ close_log path keys sbuf e).
Proof. rewrite (cl_file _ _ _ _ _ _ _ _ _ _ _ CS). reflexivity. Qed.

Lemma w_sizes : 190 < E0 path <= e /\ e < e1 /\ e1 < e2 /\ e2 < e2 + k_nbytes kf <= 2000000000 /\ zlen (f_disk f) = e2 + k_nbytes kf /\
  zlen (rec kk) = k_nbytes kk /\ zlen (rec ks) = k_nbytes ks /\ zlen (rec kf) = k_nbytes kf.
Proof.
  destruct CS as [_ LL G NK HE SO SC SR SB S4 CF].
  destruct (closed_sizes path keys recs sbuf P HE) as (B0 & B1 & B2 & B3 & B4 & KG & SG & FG & LK & LS & LF).
  destruct (disk_closed path keys recs log sbuf P LL HE) as (_ & LD).
  rewrite w_disk. split; [exact B0|]. split; [exact B1|]. split; [exact B2|]. split; [split; [exact B3|exact B4]|]. auto.
Qed.

Lemma w_hlen : zlen (hdrb h1) = 63.
Proof.
  destruct w_sizes as ((_ & B0) & _). 
  destruct (hdr1_ok path keys sbuf e P B0 (cl_end _ _ _ _ _ _ _ _ _ _ _ CS)) as (HO1 & HB1). exact (hdr_small_len _ HO1 HB1).
Qed.

Lemma base_split p h d : 100 + zlen (name_rec p ++ dirb d ++ repeat 0 12) = zlen (base p h d) + 75 - zlen (hdrb h).
Proof. unfold base. rewrite !zlen_app, !zlen_repeat. lia. Qed.

Lemma w_llen : 100 + zlen (name_rec path ++ dirb d1 ++ repeat 0 12) = E0 path.
Proof.
  destruct (b_len path keys recs sbuf P (cl_end _ _ _ _ _ _ _ _ _ _ _ CS)) as (_ & _ & LB).
  rewrite (base_split path h1), w_hlen, LB. lia.
Qed.

Lemma w_segs : seg (f_disk f) 0 (hdrb h1) /\ seg (f_disk f) 100 (name_rec path ++ dirb d1 ++ repeat 0 12) /\
  seg (f_disk f) (E0 path) (concat recs) /\ seg (f_disk f) e (rec kk) /\ seg (f_disk f) e1 (rec ks) /\ seg (f_disk f) e2 (rec kf).
Proof.
  rewrite w_disk. exact (closed_segs path keys recs log sbuf P (cl_log _ _ _ _ _ _ _ _ _ _ _ CS) (cl_end _ _ _ _ _ _ _ _ _ _ _ CS)).
Qed.

Lemma w_frame : fo = Fo (f_disk f) /\ frame_parts path fo = [(0, E0 path); (e, k_nbytes kk); (e1, k_nbytes ks); (e2, k_nbytes kf)].
Proof.
  assert (E : fo = Fo (f_disk f)).
  { destruct CS as [_ LL G NK HE SO SC SR SB S4 CF].
    pose proof (opens_closed path keys recs log sbuf sis' P G NK LL HE NB SO SC SB S4) as OP.
    rewrite <- w_disk in OP.
    exact (res_eq _ _ _ O OP). }
  split; [exact E|]. rewrite E. unfold frame_parts.
  assert (FR : first_record path = E0 path). { unfold first_record. rewrite (directory_at_ok path P). unfold E0. lia. }
  rewrite FR. reflexivity.
Qed.

Lemma w_reopens d' : zlen d' < 2 ^ 63 -> (forall s n, In (s, n) (frame_parts path fo) -> untouched (f_disk f) d' s n) ->
  open_file d' = Ok (Fo d').
Proof.
  intros LD U. destruct w_frame as (_ & FP). rewrite FP in U. destruct w_sizes as (Z0 & Z1 & Z2 & Z3 & Z4 & Z5 & Z6 & Z7).
  destruct w_segs as (S0 & S1 & S2 & S3 & S5 & S6). pose proof w_hlen as L1. pose proof w_llen as L2.
  assert (U0 : untouched (f_disk f) d' 0 (E0 path)) by (apply U; left; reflexivity).
  destruct CS as [_ LL G NK HE SO SC SR SB S4 CF].
  apply (opens_segs path keys recs sbuf sis' P G NK HE); try assumption.
  - apply (seg_same _ _ _ _ S0 ltac:(lia)). apply (untouched_part _ _ _ _ _ _ U0); lia.
  - apply (seg_same _ _ _ _ S1 ltac:(lia)). apply (untouched_part _ _ _ _ _ _ U0); lia.
  - apply (seg_same _ _ _ _ S3 ltac:(lia)). rewrite Z5. apply U. right. left. reflexivity.
  - apply (seg_same _ _ _ _ S5 ltac:(lia)). rewrite Z6. apply U. right. right. left. reflexivity.
  - apply (seg_same _ _ _ _ S6 ltac:(lia)). rewrite Z7. apply U. right. right. right. left. reflexivity.
Qed.

(** The tables, their keys and what they read as. *)
Definition placed (t : table) (kr : key * tree branch) : Prop :=
  let k := fst kr in
  key_object (f_disk f) k = Ok (OTree (snd kr)) /\ shows_table fo t (snd kr) /\
  0 <= k_seek k < 2 ^ 62 /\ 0 < k_nbytes k < 2 ^ 31 /\ 0 <= k_keylen k <= k_nbytes k /\
  forall b, In b (t_branches (snd kr)) -> br_subs b = [] /\ br_baskets b = [] /\ (exists lf, br_leaves b = [lf]) /\ forall q n, In (q, n) (own_baskets b) -> says_its_place (f_disk f) q n /\ 0 < n.

Lemma w_tables : exists krs, d_keys (f_dir fo) = map fst krs /\ Forall2 placed ts krs /\
  flat_map (fun kr => table_parts (fst kr) (snd kr)) krs = flat_map kc_parts kcs.
Proof.
  destruct w_frame as (EF & _). destruct w_segs as (_ & _ & SG & _). destruct w_sizes as (Z0 & Z1 & Z2 & Z3 & Z4 & _).
  assert (HD : zlen (f_disk f) < 2 ^ 63) by lia.
  assert (SI : forall s, col_ty (cs_ty s) -> sis_for (f_sinfos fo) (cs_ty s)).
  { intros s C. rewrite EF. cbn [f_sinfos]. apply (src_sis_for real_db); [exact real_db_ok|apply CS|exact C]. }
  assert (FD : f_disk fo = f_disk f) by (rewrite EF; reflexivity).
  assert (DK : d_keys (f_dir fo) = map key_listed keys) by (rewrite EF; reflexivity).
  assert (G : exists krs, map key_listed keys = map fst krs /\ Forall2 placed ts krs /\
    flat_map (fun kr => table_parts (fst kr) (snd kr)) krs = flat_map kc_parts kcs).
  { pose proof (pt_st _ _ _ _ _ PT) as F2. clear - P T SG HD SI FD F2. revert kcs F2. induction ts as [|t l IH]; intros kcs F2; inversion F2 as [|a kc b kcs' SK F2' E1 E2]; subst.
    - exists []. split; [reflexivity|]. split; [constructor|reflexivity].
    - inversion T as [|? ? WT T']; subst. destruct (IH T' kcs' F2') as (krs & K1 & K2 & K3).
      destruct (table_placed path recs (f_disk f) (calls t) kc P SG HD (table_tprog _ WT) SK) as (r & R1 & R2 & R3 & R4 & R5 & R6 & R7 & R8 & _).
      exists ((key_listed (fst kc), r) :: krs). split; [cbn [map fst]; now rewrite K1|]. split; [constructor; [|exact K2]|].
      + unfold placed. cbn [fst snd]. split; [exact R1|]. split; [|split; [exact R5|split; [exact R6|split; [exact R7|]]]].
        * destruct SK as (stot & SKA & _).
          destruct (read_tree path recs (f_sinfos fo) (f_disk f) (calls t) (fst kc) P SG HD SI (table_tprog _ WT) (stored_as_stored _ _ _ _ _ _ _ SKA)) as (r' & Q1 & Q2).
          pose proof (res_eq _ _ _ R1 Q1) as QQ. apply (f_equal (fun o => match o with OTree y => y | _ => r end)) in QQ. cbv beta iota in QQ. subst r'.
          apply tree_reads_shows; [exact WT|]. now rewrite FD.
        * intros b0 B. assert (BS : br_subs b0 = []). { rewrite R2 in B. apply in_map_iff in B as (c & <- & _). reflexivity. }
          split; [exact BS|]. split; [rewrite R2 in B; apply in_map_iff in B as (c & <- & _); reflexivity|].
          split; [rewrite R2 in B; apply in_map_iff in B as (c & <- & _); eexists; reflexivity|]. intros q n J. apply (R8 b0 B). unfold read_baskets. now rewrite BS.
      + cbn [flat_map fst snd]. rewrite K3. f_equal. unfold table_parts, kc_parts. rewrite R3, R4, R2, map_branch_parts. reflexivity. }
  destruct G as (krs & K1 & K2 & K3). exists krs. rewrite DK. auto.
Qed.

Lemma w_hits : exists krs, d_keys (f_dir fo) = map fst krs /\ Forall2 placed ts krs /\
  forall x, hits x (frame_parts path fo ++ flat_map (fun kr => table_parts (fst kr) (snd kr)) krs) = from x 0 - from x (zlen (f_disk f)).
Proof.
  destruct w_tables as (krs & K1 & K2 & K3). exists krs. split; [exact K1|]. split; [exact K2|]. intros x.
  rewrite hits_app, K3, (pt_hits _ _ _ _ _ PT). destruct w_frame as (_ & ->). destruct w_sizes as (_ & _ & _ & _ & -> & _).
  cbn [hits fold_right fst snd]. rewrite !Z.add_0_l. lia.
Qed.
End Whole.
