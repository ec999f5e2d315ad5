(** What is found when a name has been used more often than cycle numbers can count. *)
From Verif Require Import Base Bytes Utf8 RBuf WBuf Codec Values Key Header Obj Streamer RObj TreeObj File FileLay FileOps FileMono
  FileClose FileOpen FileFinal Names Column ColRead ColOps TreeOps ColBack ColType TreeFinal TreeWrite TreeSession StreamerDb
  Spec CodecFacts SpecName SpecTree SessFacts SpecRoom RoomFacts Sample SampleOpen PropRoom.

(** The state at the end of any session, however often a name is used. *)
Lemma any_session path ts es f : user_path path -> short_path path -> Forall table_ok ts ->
  session real_db path (map calls ts) = (f, Ok es) -> zlen (f_disk f) <= 2000000000 ->
  exists keys recs fo, open_file (f_disk f) = Ok fo /\ f_io fo = IORead (f_disk f) /\ d_keys (f_dir fo) = map key_listed keys /\
    Forall2 (fun p k => stored path recs (tp_name p) (cols_of (tp_ops p)) k) (map calls ts) keys /\ numbered keys /\
    seg (f_disk f) (E0 path) (concat recs) /\ (forall s, col_ty (cs_ty s) -> sis_for (f_sinfos fo) (cs_ty s)).
Proof.
  intros U Sh T H HD. destruct (user_path_ok path U) as [P SP]. apply SP in Sh.
  assert (W : Forall tprog_ok (map calls ts)) by (apply Forall_map; eapply Forall_impl; [|exact T]; apply table_tprog).
  unfold session in H. rewrite (FileLay.create_ok path P) in H.
  apply fbind_inv in H as (f0 & [] & H0 & H). apply flift_inv in H0 as [-> _].
  apply fbind_inv in H as (f1 & es1 & H1 & H). apply fbind_inv in H as (f2 & [] & H2 & H). injection H as <- <-.
  change 2000000000 with kStartBigFile in HD.
  assert (D1 : zlen (f_disk f1) <= kStartBigFile).
  { eapply Z.le_trans; [|exact HD]. eapply mono_disk; [|exact H2]. mono. }
  destruct (write_trees_ok real_db path _ P W [] [] [] [] [] _ _ _ (sess_create real_db path P) H1 D1) as (keys & sis & recs & S & _).
  cbn [app] in S. destruct S as [L ST CY IN UN SR EV SL].
  pose proof (lay_bound path keys sis recs f1 P L D1) as LB. destruct L as (log & -> & LL).
  pose proof (E0_pos path P) as HE0. pose proof (rsize_nonneg recs) as HR.
  assert (G : Forall key_good keys).
  { clear - ST. remember (map calls ts) as ps. clear Heqps. induction ST as [|p k ps keys H _ IH]; constructor; [|exact IH]. now apply stored_name in H. }
  destruct (close_bwd real_db path keys sis log (E0 path + rsize recs) f2 P G ltac:(lia) H2 HD) as (NK & sis' & sbuf & DE & SB & HE).
  rewrite (close_fwd real_db path keys sis log (E0 path + rsize recs) sis' sbuf P G NK ltac:(lia) DE SB HE) in H2.
  apply (f_equal fst) in H2. cbn [fst] in H2. subst f2.
  destruct (deep_ext real_db _ _ DE) as (ext & EX & FE).
  assert (SR' : Forall (src real_db) sis').
  { rewrite EX. apply Forall_app. split; [exact SR|]. eapply Forall_impl; [|exact FE]. intros a. left. assumption. }
  pose proof (deep_uniq real_db _ _ DE UN) as UN'.
  assert (SO : Forall sinfo_ok sis') by (eapply Forall_impl; [|exact SR']; intros a; apply src_ok; exact real_db_ok).
  pose proof (src_count real_db _ real_db_ok UN' SR') as SC.
  destruct (closed_sizes path keys recs sbuf P HE) as (Z0 & Z1 & Z2 & Z3 & Z4 & _).
  assert (S4 : 3 <= zlen sbuf).
  { pose proof (key_len_pos _ _ _ names_ok_si) as Ls. fold si_keylen in Ls.
    assert (4 <= zlen sbuf); [|lia]. apply (sinfos_buf_len si_keylen sis' sbuf SO SC SB); [lia|].
    match type of Z2 with ?a < ?b => assert (Z5 : b = a + (si_keylen + zlen sbuf)) by (unfold skey; rewrite mk_key_nbytes; reflexivity) end.
    lia. }
  pose proof (opens_closed path keys recs log sbuf sis' P G NK LL HE Sh SO SC SB S4) as OP.
  unfold f_disk. cbn [f_io]. exists keys, recs. eexists. split; [exact OP|]. split; [reflexivity|]. split; [reflexivity|].
  split; [exact ST|]. split; [exact CY|]. split; [apply (closed_segs path keys recs log sbuf P LL HE)|].
  intros s C. cbn [f_sinfos]. apply (src_sis_for real_db); [exact real_db_ok|exact SR'|exact C].
Qed.

(** Cycle numbers in any file, however often a name is used: the first 32767 objects of a
    name are numbered from 1 in the order of writing, all later ones get -32768. *)
Theorem C16_cycle_numbers path ts es f : user_path path -> short_path path -> Forall table_ok ts ->
  session real_db path (map calls ts) = (f, Ok es) -> zlen (f_disk f) <= 2000000000 ->
  exists fo, open_file (f_disk f) = Ok fo /\ keys_name fo = map tb_name ts /\
    forall earlier k later, d_keys (f_dir fo) = earlier ++ k :: later ->
      let n := times (k_name k) (map k_name earlier) in k_cycle k = if n <? 32767 then n + 1 else -32768.
Proof.
  intros U Sh T H HD. destruct (any_session path ts es f U Sh T H HD) as (keys & recs & fo & O & IO & DK & ST & NB & _).
  assert (NM : forall l, map k_name (map key_listed l) = map k_name l).
  { intros l. rewrite map_map. apply map_ext. intros x. unfold key_listed, fix_class. destruct (beqb (k_class (key_seen x)) _); reflexivity. }
  exists fo. split; [exact O|]. split.
  - unfold keys_name. rewrite DK, NM, (stored_names _ _ _ _ ST), map_map. reflexivity.
  - intros a k b E n. rewrite DK in E. apply map_eq_app in E as (a1 & r1 & EK & <- & E). destruct r1 as [|k1 r1]; [discriminate E|].
    cbn [map] in E. injection E as E1 _. pose proof (NB _ _ _ EK) as C. subst n. rewrite NM, <- E1.
    unfold key_listed, fix_class. destruct (beqb (k_class (key_seen k1)) _); exact C.
Qed.

(** The largest of some cycles, when all before are at most and all after are below it. *)
Lemma best_from b : forall k, Forall (fun x => k_cycle x < k_cycle k) b -> best_key k b = k.
Proof.
  induction b as [|x b IH]; intros k F; [reflexivity|]. inversion F as [|? ? F1 F2]; subst. cbn [best_key].
  destruct (Z.leb_spec (k_cycle k) (k_cycle x)); [lia|]. now apply IH.
Qed.
Lemma best_mid a : forall k0 k b, Forall (fun x => k_cycle x <= k_cycle k) (k0 :: a) -> Forall (fun x => k_cycle x < k_cycle k) b ->
  best_key k0 (a ++ k :: b) = k.
Proof.
  induction a as [|x a IH]; intros k0 k b F FB; inversion F as [|? ? F1 F2]; subst; cbn [app best_key].
  - destruct (Z.leb_spec (k_cycle k0) (k_cycle k)); [|lia]. now apply best_from.
  - inversion F2 as [|? ? F3 F4]; subst. destruct (k_cycle k0 <=? k_cycle x); apply IH; auto.
Qed.

(** The 32767th object of a name is the last one to be found: whatever is written under the
    same name afterwards is stored and listed, and looking the name up does not give it. *)
Theorem C16_newest_cycle_wins_refuted path ts es f earlier t later : user_path path -> short_path path -> Forall table_ok ts ->
  session real_db path (map calls ts) = (f, Ok es) -> zlen (f_disk f) <= 2000000000 ->
  ts = earlier ++ t :: later -> times (tb_name t) (map tb_name earlier) = 32766 -> ~ In 59 (tb_name t) ->
  exists fo r, open_file (f_disk f) = Ok fo /\ keys_name fo = map tb_name ts /\ get_tree fo (tb_name t) = Ok r /\ shows_table fo t r.
Proof.
  intros U Sh T H HD E TM NS. destruct (any_session path ts es f U Sh T H HD) as (keys & recs & fo & O & IO & DK & ST & NB & SG & SI).
  destruct (user_path_ok path U) as [P _].
  assert (KN : map k_name keys = map tb_name ts) by (rewrite (stored_names _ _ _ _ ST), map_map; reflexivity).
  pose proof ST as ST0. rewrite E, map_app in ST0. cbn [map] in ST0.
  apply Forall2_app_inv_l in ST0 as (ka & kr & STa & STr & EK). inversion STr as [|? k ? kb HK STb]; subst kr x l.
  destruct (stored_name _ _ _ _ _ HK) as (EN & _). change (tp_name (calls t)) with (tb_name t) in EN.
  assert (NA : map k_name ka = map tb_name earlier) by (rewrite (stored_names _ _ _ _ STa), map_map; reflexivity).
  assert (CK : k_cycle k = 32767).
  { rewrite (NB _ _ _ EK), EN, NA, TM. reflexivity. }
  assert (FA : Forall (fun x => k_cycle x <= k_cycle k) keys) by (rewrite CK; exact (numbered_le _ NB)).
  assert (FB : forall x, In x kb -> k_name x = tb_name t -> k_cycle x < k_cycle k).
  { intros x I EX. apply in_split in I as (b1 & b2 & EB). rewrite EB in EK.
    replace (ka ++ k :: b1 ++ x :: b2) with ((ka ++ k :: b1) ++ x :: b2) in EK by (rewrite <- app_assoc; reflexivity).
    rewrite (NB _ _ _ EK), EX, map_app, times_app, NA, TM. cbn [map]. change (k_name k :: map k_name b1) with ([k_name k] ++ map k_name b1).
    rewrite times_app, EN, times_one. pose proof (times_nonneg (tb_name t) (map k_name b1)).
    destruct (Z.ltb_spec (32766 + (1 + times (tb_name t) (map k_name b1))) 32767); lia. }
  assert (BK : exists k0 r, filter (fun x => beqb (k_name x) (tb_name t)) keys = k0 :: r /\ best_key k0 r = k).
  { rewrite EK, filter_app. cbn [filter]. rewrite EN, beqb_refl.
    assert (GB : Forall (fun x => k_cycle x < k_cycle k) (filter (fun x => beqb (k_name x) (tb_name t)) kb)).
    { apply Forall_forall. intros x I. apply filter_In in I as [I X]. apply beqb_eq in X. now apply FB. }
    assert (GA : Forall (fun x => k_cycle x <= k_cycle k) (filter (fun x => beqb (k_name x) (tb_name t)) ka)).
    { apply Forall_forall. intros x I. apply filter_In in I as [I _]. rewrite Forall_forall in FA. apply FA. rewrite EK. apply in_or_app. now left. }
    destruct (filter _ ka) as [|k0 a]; cbn [app]; eexists _, _; (split; [reflexivity|]); [now apply best_from|now apply best_mid]. }
  destruct BK as (k0 & r & EF & BK).
  assert (WT : table_ok t). { rewrite Forall_forall in T. apply T. rewrite E. apply in_or_app. right. now left. }
  assert (HD' : zlen (f_disk f) < 2 ^ 63) by lia.
  destruct (read_tree path recs (f_sinfos fo) (f_disk f) (calls t) k P SG HD' SI (table_tprog _ WT) HK) as (r0 & T1 & T2).
  assert (FD : f_disk fo = f_disk f) by (unfold f_disk at 1; now rewrite IO).
  exists fo, r0. split; [exact O|]. split; [|split].
  - unfold keys_name. rewrite DK, map_map, <- KN. apply map_ext. intros x. unfold key_listed, fix_class. destruct (beqb (k_class (key_seen x)) _); reflexivity.
  - unfold get_tree, get_object. assert (FR : freader fo = Ok (f_disk f)) by (unfold freader; now rewrite IO). rewrite FR. cbn [rbind].
    assert (DC : decode_name_cycle (tb_name t) = Ok (tb_name t)).
    { unfold decode_name_cycle. replace (filter (Z.eqb 59) (tb_name t)) with (@nil Z); [reflexivity|].
      clear - NS. induction (tb_name t) as [|a n IH]; [reflexivity|]. cbn [filter].
      destruct (Z.eqb_spec 59 a) as [<-|]; [destruct NS; now left|]. apply IH. intros I. apply NS. now right. }
    rewrite DC. cbn [rbind]. rewrite DK, filter_listed, EF. cbn [map]. rewrite best_listed, BK, T1. reflexivity.
  - apply tree_reads_shows; [exact WT|]. now rewrite FD.
Qed.

(** Such a file: 32767 empty trees, then one with a column.  It can be written and opened;
    what is found is an empty tree, not the one written last. *)
Definition last_one : table := Table (bs "a") [AddColumn (Column (bs "x") (TPrim U8) [VInt 7])].
Example too_many k : Z.of_nat k = 32767 ->
  exists es f fo r, session real_db path0 (map calls (repeat (Table (bs "a") []) k ++ [last_one])) = (f, Ok es) /\
    open_file (f_disk f) = Ok fo /\ get_tree fo (bs "a") = Ok r /\ shows_table fo (Table (bs "a") []) r /\ ~ shows_table fo last_one r.
Proof.
  intros K. set (ts := repeat _ k ++ _).
  assert (E : forall t, In t ts -> t = Table (bs "a") [] \/ t = last_one).
  { intros t I. apply in_app_or in I as [I|[<-|[]]]; [apply repeat_spec in I|]; auto. }
  assert (T : Forall table_ok ts).
  { apply Forall_forall. intros t I. destruct (E t I) as [-> | ->]; [split; [sample|]; split; [sample|constructor]|unfold last_one; sample]. }
  assert (R : room path0 ts <= 2000000000).
  { unfold room, ts. rewrite total_both, !total_repeat, K. vm_compute. discriminate. }
  destruct (fits_any path0 ts) as (es & f & H & D); [split; sample|exact T| |exact R|].
  { apply Forall_forall. intros t I. destruct (E t I) as [-> | ->]; (split; [vm_compute; intuition discriminate|]); [constructor|].
    constructor; [split; [apply steady_fits; exact Logic.I|vm_compute; discriminate]|constructor]. }
  destruct k as [|k]; [exfalso; clear - K; discriminate K|].
  assert (NS : ~ In 59 (tb_name (Table (bs "a") []))) by (clear; vm_compute; intuition discriminate).
  assert (HD : zlen (f_disk f) <= 2000000000) by (clear - D R; lia).
  destruct (C16_newest_cycle_wins_refuted path0 ts es f (repeat (Table (bs "a") []) k) (Table (bs "a") []) [last_one]) as (fo & r & O & _ & G & S);
    [split; clear; sample|clear; vm_compute; discriminate|exact T|exact H|exact HD| | |exact NS|].
  - unfold ts. change (Table (bs "a") [] :: [last_one]) with ([Table (bs "a") []] ++ [last_one]). rewrite app_assoc. f_equal. apply repeat_cons.
  - rewrite map_repeated, times_repeat. cbn [tb_name]. rewrite beqb_refl. clear - K. lia.
  - exists es, f, fo, r. split; [exact H|]. split; [exact O|]. split; [exact G|]. split; [exact S|].
    intros (_ & X & _). destruct S as (_ & Y & _). clear - X Y. rewrite Y in X. discriminate X.
Qed.

(** The cycles of the sample: the two trees of one name are told apart. *)
Example sample_cycles : map (fun k => (k_name k, k_cycle k)) (d_keys (f_dir sample_opened)) =
  [(bs "events", 1); (bs "t2", 1); (bs "events", 2)].
Proof. vm_compute. reflexivity. Qed.
