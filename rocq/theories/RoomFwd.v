(** A whole session succeeds when there is room: the trees, then [close]. *)
From Verif Require Export SessFwd StreamerDb.

Lemma write_trees_fwd db path ps' : path_ok path -> db (bs "TTree") 20 <> None -> Forall tprog_ok ps' -> Forall prog_room ps' ->
  forall ps es keys sis recs f, sess db path ps es keys sis recs f -> Forall (writer_si db) sis ->
  E0 path + rsize recs + sumz prog_cost ps' <= kStartBigFile ->
  exists f' es' keys' sis' recs', write_trees db ps' f = (f', Ok es') /\ sess db path (ps ++ ps') (es ++ es') keys' sis' recs' f' /\
    Forall (writer_si db) sis' /\ rsize recs' <= rsize recs + sumz prog_cost ps'.
Proof.
  intros P HD W. induction W as [|p ps' Wp W IH]; intros R ps es keys sis recs f S FS HE.
  - exists f, [], keys, sis, recs. rewrite !app_nil_r. split; [reflexivity|]. split; [exact S|]. split; [exact FS|]. cbn. lia.
  - inversion R as [|? ? Rp R']; subst. unfold sumz in HE. cbn [map fold_right] in HE. fold (sumz prog_cost ps') in HE.
    assert (NN : 0 <= sumz prog_cost ps').
    { clear - W. unfold sumz. induction W as [|q l Q _ IH]; [reflexivity|]. cbn [map fold_right]. pose proof (prog_cost_nonneg q Q). lia. }
    pose proof (prog_cost_nonneg p Wp).
    destruct (write_one_fwd db path ps es keys sis recs f p P S FS HD Wp Rp ltac:(lia)) as (f1 & e & keys1 & sis1 & recs1 & H1 & S1 & F1 & Z1).
    destruct (IH R' (ps ++ [p]) (es ++ [e]) keys1 sis1 recs1 f1 S1) as (f2 & es2 & keys2 & sis2 & recs2 & H2 & S2 & F2 & Z2);
      [exact F1|lia|].
    rewrite <- !app_assoc in S2. cbn [app] in S2.
    exists f2, (e :: es2), keys2, sis2, recs2. split; [|split; [exact S2|split; [exact F2|]]].
    + cbn [write_trees]. unfold fbind at 1. rewrite H1. unfold fbind at 1. rewrite H2. reflexivity.
    + unfold sumz. cbn [map fold_right]. fold (sumz prog_cost ps'). lia.
Qed.

(** ** The class descriptions *)
Definition tree_si : sinfo := Eval vm_compute in match real_db (bs "TTree") 20 with Some s => s | None => mkSI (new_named [] []) 0 0 [] end.
Lemma real_tree : real_db (bs "TTree") 20 = Some tree_si.
Proof. vm_cast_no_check (@eq_refl (option sinfo) (Some tree_si)). Qed.

(** A class that [close] finds a description for, or needs none for. *)
Definition known (d : bytes * Z) : bool :=
  is_core_type (fst d) || is_cxx_builtin (fst d) || match real_db (fst d) (snd d) with Some _ => true | None => false end.
Lemma add_deps_known deps : forallb known deps = true -> forall sis, exists sis', add_deps real_db sis deps = Ok sis'.
Proof.
  induction deps as [|d deps IH]; intros H sis; cbn [add_deps forallb] in *; [eauto|].
  apply andb_prop in H as [H1 H2]. unfold known in H1.
  destruct (is_core_type (fst d) || is_cxx_builtin (fst d)); [now apply IH|].
  destruct (real_db (fst d) (snd d)); [now apply IH|discriminate].
Qed.
Definition deps_known (si : sinfo) : bool :=
  match visit_all real_db (si_elems si) with Ok l => forallb known l | _ => false end.
Lemma tree_known : deps_known tree_si = true.
Proof. vm_cast_no_check (eq_refl true). Qed.
Definition vec_sis : list sinfo := Eval vm_compute in
  flat_map (fun p => match vec_sinfo (TPrim p) with Ok s => [s] | _ => [] end) [I8; U8; I16; U16; I32; U32; I64; U64; F32; F64; PBool].
Lemma vec_si_in s : vec_si s -> In s vec_sis.
Proof.
  intros (t & H). destruct t as [p| | |]; try discriminate. 
  assert (forallb (fun p => match vec_sinfo (TPrim p) with Ok s => true | _ => false end) [I8] = true) by (vm_compute; reflexivity).
  unfold vec_sis. destruct p; vm_compute in H; try discriminate; injection H as <-;
    repeat first [left; reflexivity|right].
Qed.
Lemma vecs_known : forallb deps_known vec_sis = true.
Proof. vm_compute. reflexivity. Qed.

Lemma deep_fwd sis : Forall (writer_si real_db) sis -> exists sis', deep real_db sis = Ok sis'.
Proof.
  intros H. assert (exists deps, all_deps real_db sis = Ok deps /\ forallb known deps = true) as (deps & E & K).
  { induction H as [|s sis Hs _ (deps & E & K)]; [exists []; split; reflexivity|].
    assert (DK : deps_known s = true).
    { destruct Hs as [Hs|Hs].
      - rewrite real_tree in Hs. injection Hs as <-. exact tree_known.
      - pose proof vecs_known as VK. rewrite forallb_forall in VK. apply VK. now apply vec_si_in. }
    unfold deps_known in DK. cbn [all_deps]. destruct (visit_all real_db (si_elems s)) as [l| | | |]; try discriminate.
    cbn [rbind]. rewrite E. cbn [rbind]. exists (l ++ deps). split; [reflexivity|]. now rewrite forallb_app, DK, K. }
  unfold deep. rewrite E. cbn [rbind]. now apply add_deps_known.
Qed.

(** Their size. *)
Lemma wle_named' n : wle (zlen (n_name n) + zlen (n_title n) + 28) (named_marshal n).
Proof.
  unfold named_marshal. eapply wle_le.
  - apply wle_bind; [apply wle_lm1|intros _]. apply wle_header. apply wle_bind; [apply wle_obj|intros _].
    apply wle_bind; [apply wle_string|intros _; apply wle_string].
  - lia.
Qed.
Definition el_cost (e : element) : Z :=
  zlen (n_name (e_named e)) + zlen (n_title (e_named e)) + zlen (e_ename e) + 4 * zlen (e_maxidx e) + 60.
Lemma wle_elem e : wle (el_cost e) (elem_marshal e).
Proof.
  unfold elem_marshal. eapply wle_le.
  - apply wle_bind; [apply wle_lm1|intros _]. apply wle_header.
    repeat lazymatch goal with
    | |- wle _ (named_marshal _) => apply wle_named'
    | |- wle _ (iterM write_i32 _) => apply (wle_ints 4)
    | |- _ => wle_step end.
  - unfold el_cost. lia.
Qed.
Definition st_cost (s : streamer) : Z :=
  el_cost (s_elem s) + match s with SBasicPointer _ _ n c => zlen n + zlen c | _ => 0 end + 60.
Lemma wle_streamer s i : wle (st_cost s) (streamer_item (i, s)).
Proof.
  unfold streamer_item. cbn [fst snd].
  assert (CL : zlen (s_class s) <= 25) by (destruct s; rewrite zlen_def; vm_compute; discriminate).
  assert (EC : 0 <= el_cost (s_elem s)) by (unfold el_cost; pose proof (zlen_nonneg (n_name (e_named (s_elem s)))); pose proof (zlen_nonneg (n_title (e_named (s_elem s))));
    pose proof (zlen_nonneg (e_ename (s_elem s))); pose proof (zlen_nonneg (e_maxidx (s_elem s))); lia).
  assert (PC : 0 <= match s with SBasicPointer _ _ n c => zlen n + zlen c | _ => 0 end).
  { destruct s; try lia. pose proof (zlen_nonneg cname). pose proof (zlen_nonneg ccls). lia. }
  eapply wle_le; [apply wle_bind; [apply (wle_any _ _ (el_cost (s_elem s) + match s with SBasicPointer _ _ n c => zlen n + zlen c | _ => 0 end + 20)); [lia|]|intros _; apply wle_ret]|unfold st_cost; lia].
  clear. destruct s; cbn [streamer_marshal s_elem]; try (eapply wle_le; [apply wle_panic|unfold el_cost; 
    pose proof (zlen_nonneg (n_name (e_named e))); pose proof (zlen_nonneg (n_title (e_named e))); pose proof (zlen_nonneg (e_ename e)); pose proof (zlen_nonneg (e_maxidx e)); lia]);
  (eapply wle_le; [repeat lazymatch goal with |- wle _ (elem_marshal _) => apply wle_elem | |- _ => wle_step end|lia]).
Qed.
Definition si_cost (s : sinfo) : Z :=
  zlen (n_name (si_named s)) + zlen (n_title (si_named s)) + sumz st_cost (si_elems s) + 150.
Lemma wle_streamers l : forall i, wle (sumz st_cost l) (iterM (fun m => m) (map streamer_item (number i l))).
Proof.
  induction l as [|s l IH]; intros i; [apply wle_ret|]. cbn [number map iterM]. unfold sumz. cbn [map fold_right].
  apply wle_bind; [apply wle_streamer|intros _; apply IH].
Qed.
Lemma st_cost_pos s : 0 <= st_cost s.
Proof.
  unfold st_cost, el_cost. pose proof (zlen_nonneg (n_name (e_named (s_elem s)))); pose proof (zlen_nonneg (n_title (e_named (s_elem s))));
    pose proof (zlen_nonneg (e_ename (s_elem s))); pose proof (zlen_nonneg (e_maxidx (s_elem s))).
  destruct s; try lia. pose proof (zlen_nonneg cname). pose proof (zlen_nonneg ccls). lia.
Qed.
Lemma wle_sinfo addr base s : wle (si_cost s) (sinfo_item (addr, base, s)).
Proof.
  unfold sinfo_item, sinfo_marshal. pose proof (sumz_nonneg st_cost st_cost_pos (si_elems s)).
  pose proof (zlen_nonneg (n_name (si_named s))). pose proof (zlen_nonneg (n_title (si_named s))).
  change (zlen (bs "TStreamerInfo")) with 13 in *.
  eapply wle_le; [apply wle_bind; [apply (wle_any _ _ (zlen (n_name (si_named s)) + zlen (n_title (si_named s)) + sumz st_cost (si_elems s) + 100)); [lia|]|intros _; apply wle_ret]
    |change (zlen (bs "TStreamerInfo")) with 13; unfold si_cost; lia].
  eapply wle_le; [apply wle_bind; [apply wle_lm1|intros _]; apply wle_header; apply wle_bind; [apply wle_named'|intros _];
     apply wle_bind; [wle_step|intros _]; apply wle_bind; [wle_step|intros _];
     apply (wle_any _ _ (sumz st_cost (si_elems s) + 31)); [lia|]|change (zlen (bs "TObjArray")) with 9; lia].
  eapply wle_le; [apply wle_bind; [apply wle_lm1|intros _; apply wle_objarray; apply wle_streamers]|lia].
Qed.
Lemma wle_sinfos l : wle (sumz si_cost l + 5 * zlen l + 50) (sinfos_marshal l).
Proof.
  unfold sinfos_marshal, list_marshal.
  assert (I : forall addr base, wle (sumz si_cost l + 5 * zlen l) (iterM (fun m => m ;;; write_string []) (map sinfo_item (place addr base l)))).
  { induction l as [|s l IH]; intros addr base; [apply wle_ret|]. cbn [place map iterM]. unfold sumz. cbn [map fold_right].
    eapply wle_le; [apply wle_bind; [apply wle_bind; [apply wle_sinfo|intros _; apply wle_string]|intros _; apply IH]|].
    rewrite zlen_cons, (@zlen_nil Z). unfold sumz. lia. }
  pose proof (zlen_nonneg l).
  eapply wle_le; [apply wle_bind; [apply wle_gets|intros beg]; apply wle_bind;
    [apply wle_header; apply wle_bind; [apply wle_obj|intros _]; apply wle_bind; [apply wle_string|intros _];
     apply wle_bind; [wle_step|intros _; apply I]|intros _; repeat wle_step]|].
  rewrite (@zlen_nil Z). lia.
Qed.

Lemma sumz_incl {A} (g : A -> Z) (G : forall a, 0 <= g a) l : NoDup l -> forall m, incl l m -> sumz g l <= sumz g m.
Proof.
  induction 1 as [|a l NI _ IH]; intros m H; [apply sumz_nonneg; exact G|].
  destruct (in_split a m (H a (or_introl eq_refl))) as (m1 & m2 & ->).
  assert (IN : incl l (m1 ++ m2)).
  { intros x X. pose proof (H x (or_intror X)) as Y. apply in_app_iff in Y as [Y|[->|Y]]; [apply in_or_app; now left|contradiction|apply in_or_app; now right]. }
  specialize (IH _ IN). unfold sumz in *. rewrite !map_app, !fold_right_app in *. cbn [map fold_right] in *.
  assert (Z0 : forall l z w, fold_right Z.add (z + w) l = z + fold_right Z.add w l) by (clear; induction l as [|x l IHl]; intros z w; cbn [fold_right]; [lia|rewrite IHl; lia]).
  rewrite Z0. lia.
Qed.

Definition all_sis : list sinfo := table ++ vec_sis.
(** The most that all class descriptions together can take. *)
Definition sinfo_room : Z := 80000.
Lemma all_room : sumz (fun s => si_cost s + 5) all_sis + 50 <= sinfo_room.
Proof. vm_compute. discriminate. Qed.
Lemma sinfos_small sis off buf : uniq sis -> Forall (src real_db) sis -> wrun off (sinfos_marshal sis) = Ok buf -> zlen buf <= sinfo_room.
Proof.
  intros U F H. apply (wle_wrun _ _ _ _ (wle_sinfos sis)) in H. pose proof all_room.
  assert (SE : sumz (fun s => si_cost s + 5) sis = sumz si_cost sis + 5 * zlen sis).
  { clear. unfold sumz. induction sis as [|s l IH]; [reflexivity|]. cbn [map fold_right]. rewrite IH, zlen_cons. lia. }
  assert (SI : sumz (fun s => si_cost s + 5) sis <= sumz (fun s => si_cost s + 5) all_sis).
  { apply sumz_incl.
    - intros a. unfold si_cost. pose proof (sumz_nonneg st_cost st_cost_pos (si_elems a)).
      pose proof (zlen_nonneg (n_name (si_named a))). pose proof (zlen_nonneg (n_title (si_named a))). lia.
    - unfold uniq in U. clear - U. eapply NoDup_map_inv. exact U.
    - intros s Hs. rewrite Forall_forall in F. unfold all_sis. apply in_or_app. destruct (F s Hs) as [(n & v & E)|V].
      + left. now apply real_db_in in E.
      + right. now apply vec_si_in. }
  lia.
Qed.

(** ** The whole session *)
Definition close_cost (path : bytes) (ps : list tprog) : Z :=
  2 * path_keylen path + key_len_for path [] (bs "TDirectory") false + sumz (fun p => key_len_for (tp_name p) [] (bs "TTree") false) ps +
  si_keylen + sinfo_room + 14.

Lemma hdr1_end path keys sbuf e : fh_end (hdr1 path keys sbuf e) = e + k_nbytes (kkey path keys e) +
  k_nbytes (skey sbuf (e + k_nbytes (kkey path keys e))) +
  k_nbytes (fkey path (e + k_nbytes (kkey path keys e) + k_nbytes (skey sbuf (e + k_nbytes (kkey path keys e))))).
Proof. reflexivity. Qed.

Theorem session_fwd path ps : path_ok path -> Forall tprog_ok ps -> Forall prog_room ps ->
  E0 path + sumz prog_cost ps + close_cost path ps <= kStartBigFile ->
  exists f es, session real_db path ps = (f, Ok es) /\ zlen (f_disk f) <= E0 path + sumz prog_cost ps + close_cost path ps.
Proof.
  intros P W R HE.
  assert (PK : 0 <= path_keylen path) by (pose proof (key_len_pos _ _ _ (names_ok_file path P)) as X; unfold path_keylen; lia).
  assert (DK : 0 <= key_len_for path [] (bs "TDirectory") false) by (pose proof (key_len_pos _ _ _ (names_ok_dir path P)) as X; lia).
  assert (SK : 0 <= si_keylen) by (pose proof (key_len_pos _ _ _ names_ok_si) as X; unfold si_keylen; lia).
  assert (TK : zlen ps <= sumz (fun p => key_len_for (tp_name p) [] (bs "TTree") false) ps).
  { clear - W. unfold sumz. induction W as [|p l (Hp & _) _ IH]; [apply Z.le_refl|]. rewrite zlen_cons. cbn [map fold_right]. pose proof (key_len_pos _ _ _ Hp). lia. }
  pose proof (zlen_nonneg ps) as LPS.
  unfold close_cost, sinfo_room in HE.
  destruct (write_trees_fwd real_db path ps P ltac:(rewrite real_tree; discriminate) W R [] [] [] [] [] _ (sess_create real_db path P)
    (Forall_nil _) ltac:(unfold rsize; cbn [concat]; rewrite (@zlen_nil Z); lia))
    as (f1 & es & keys & sis & recs & H1 & S & FS & Z1).
  cbn [app] in S. destruct S as [L ST CY IN UN SR EV SL].
  replace (rsize []) with 0 in Z1 by (unfold rsize; cbn [concat]; now rewrite (@zlen_nil Z)).
  destruct L as (log & -> & LL).
  pose proof (E0_pos path P) as HE0. pose proof (rsize_nonneg recs) as HR.
  assert (G : Forall key_good keys).
  { clear - ST. induction ST as [|p k ps keys H _ IH]; constructor; [|exact IH]. now apply stored_name in H. }
  assert (PC : 0 <= sumz prog_cost ps).
  { clear - W. unfold sumz. induction W as [|q l Q _ IH]; [reflexivity|]. cbn [map fold_right]. pose proof (prog_cost_nonneg q Q). lia. }
  assert (NK : zlen keys < 2 ^ 31) by (rewrite <- (Forall2_zlen _ _ _ ST); unfold kStartBigFile in HE; lia).
  destruct (deep_fwd sis FS) as (sis' & DE).
  destruct (deep_ext real_db _ _ DE) as (ext & EX & FE).
  assert (SR' : Forall (src real_db) sis').
  { rewrite EX. apply Forall_app. split; [exact SR|]. eapply Forall_impl; [|exact FE]. intros a. left. assumption. }
  pose proof (deep_uniq real_db _ _ DE UN) as UN'.
  assert (SO : Forall sinfo_ok sis') by (eapply Forall_impl; [|exact SR']; intros a; apply src_ok; exact real_db_ok).
  pose proof (src_count real_db _ real_db_ok UN' SR') as SC.
  destruct (sim0_ok _ _ _ _ si_keylen (sinfos_sim 0 sis' SO SC) SK) as (sbuf & SB).
  pose proof (sinfos_small sis' si_keylen sbuf UN' SR' SB) as SZ. unfold sinfo_room in SZ.
  assert (KB : zlen (keys_buf keys) = 4 + sumz (fun p => key_len_for (tp_name p) [] (bs "TTree") false) ps).
  { rewrite keys_buf_len. f_equal. clear - ST. unfold sumz. induction ST as [|p k ps keys H _ IH]; [reflexivity|]. cbn [map concat fold_right].
    rewrite zlen_app, IH. f_equal. destruct H as (cy & e & buf & m & tot & cols & E & (K1 & _ & K3) & _).
    destruct (khdr_ok _ K1) as (KL & _). rewrite KL, <- K3, E. reflexivity. }
  assert (HB : fh_end (hdr1 path keys sbuf (E0 path + rsize recs)) <= E0 path + sumz prog_cost ps + close_cost path ps).
  { unfold close_cost, sinfo_room. rewrite hdr1_end. unfold kkey, skey, fkey. rewrite !mk_key_nbytes, KB. fold si_keylen.
    fold (path_keylen path).
    match goal with |- context [zlen (seg_buf ?e)] => destruct (zlen_seg_buf e) as (SG & _) end.
    - red. unfold kStartBigFile in *. pose proof (zlen_nonneg sbuf). lia.
    - rewrite SG. lia. }
  assert (HH : fh_end (hdr1 path keys sbuf (E0 path + rsize recs)) <= kStartBigFile) by (unfold close_cost, sinfo_room in HB; lia).
  pose proof (close_fwd real_db path keys sis log (E0 path + rsize recs) sis' sbuf P G NK ltac:(lia) DE SB HH) as HC.
  eexists _, es. split.
  - unfold session. rewrite (FileLay.create_ok path P). unfold fbind at 1, flift at 1. unfold fbind at 1. rewrite H1.
    unfold fbind at 1. rewrite HC. reflexivity.
  - unfold f_disk. cbn [f_io].
    pose proof (disk_closed path keys recs log sbuf P LL HH) as (_ & DL).
    rewrite DL. rewrite hdr1_end in HB. exact HB.
Qed.
