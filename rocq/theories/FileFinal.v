(** The disk at every point between creating and closing a file. *)
From Verif Require Export FileOpen.

Lemma read_at_seg d p n s : seg d p s -> zlen s = n -> p + n < 2 ^ 63 -> read_at d p n = Ok s.
Proof.
  intros S <- Hd. pose proof (seg_bound _ _ _ S). pose proof (seg_nonneg _ _ _ S).
  pose proof (zlen_nonneg s). unfold read_at. rewrite !to_u64_small by lia.
  destruct (Z.leb_spec (2 ^ 63) p); [lia|]. destruct (Z.leb_spec (2 ^ 63) (zlen s)); [lia|].
  replace ((zlen s =? 0) || (p + zlen s <=? zlen d)) with true by (symmetry; lia).
  destruct S as (a & c & -> & <-). now rewrite zsub_mid.
Qed.
Lemma read_at_short d p n : 0 <= p < 2 ^ 63 -> 0 < n < 2 ^ 63 -> zlen d < p + n -> read_at d p n = Err EIo.
Proof.
  intros Hp Hn Hd. unfold read_at. rewrite !to_u64_small by lia.
  destruct (Z.leb_spec (2 ^ 63) p); [lia|]. destruct (Z.leb_spec (2 ^ 63) n); [lia|].
  now replace ((n =? 0) || (p + n <=? zlen d)) with false by (symmetry; lia).
Qed.

(** Writes beyond [b] leave [b]. *)
Lemma dwrite_keeps b x p w : zlen b <= p -> exists y, dwrite (b ++ x) p w = b ++ y.
Proof.
  intros H. destruct w as [|w0 w]; [now exists x|]. unfold dwrite. cbv zeta.
  set (d' := (b ++ x) ++ _).
  assert (E : d' = b ++ (x ++ repeat 0 (Z.to_nat (p - zlen (b ++ x))))) by (unfold d'; now rewrite app_assoc).
  rewrite E. rewrite firstn_app. rewrite firstn_all2 by (rewrite zlen_def in H; lia).
  rewrite <- app_assoc. eexists. reflexivity.
Qed.
Lemma fold_keeps l b x : Forall (fun w : Z * bytes => zlen b <= fst w) l ->
  exists y, fold_left (fun d w => dwrite d (fst w) (snd w)) l (b ++ x) = b ++ y.
Proof.
  revert x; induction l as [|w l IH]; intros x F; cbn [fold_left]; [now exists x|].
  inversion F; subst. destruct (dwrite_keeps b x (fst w) (snd w)) as (y & ->); [assumption|]. now apply IH.
Qed.

(** ** Before the directory is saved *)
Lemma open_start D h : fhdr_ok h -> seg D 0 (hdrb h) -> 76 <= zlen D ->
  exists b, read_at D 0 76 = Ok b /\ rrun 0 fhdr_unmarshal b = Ok h.
Proof.
  intros HO HS SZ. destruct (hdrb_ok h HO) as (_ & _ & RH). pose proof (hdrb_short h HO) as HL.
  destruct HS as (a & c & ED & LA). apply zlen_0_nil in LA. subst a. cbn [app] in ED.
  assert (exists x y, c = x ++ y /\ zlen (hdrb h ++ x) = 76) as (x & y & Ec & LX).
  { rewrite ED, zlen_app in SZ. destruct (zsub_split c 0 (76 - zlen (hdrb h))) as (a' & b' & E & LA'); [lia|lia|lia|].
    apply zlen_0_nil in LA'. subst a'. cbn [app] in E. eexists _, b'. split; [exact E|].
    rewrite zlen_app, zsub_length by lia. lia. }
  exists (hdrb h ++ x). split; [|now apply reads_rrun].
  apply read_at_seg; [|exact LX|lia]. exists [], y. split; [rewrite ED, Ec; now rewrite <- app_assoc|reflexivity].
Qed.

Lemma open_short D path : path_ok path -> seg D 0 (hdrb (hdr0 path)) -> 76 <= zlen D < E0 path ->
  open_file D = Err EIo.
Proof.
  intros P S SZ. destruct (hdr0_ok path P) as (HO & HB). pose proof (E0_pos path P) as HE0.
  destruct (open_start D _ HO S) as (b & E1 & E2); [lia|].
  unfold open_file. rewrite E1. cbn [rbind]. rewrite E2. cbn [rbind].
  unfold read_dir_info. change (fh_nbname (hdr0 path)) with (nbname path). change (fh_version (hdr0 path)) with 63002.
  change (fh_begin (hdr0 path)) with 100. change (fh_end (hdr0 path)) with (E0 path). unfold E0 in *.
  change (record_size 63002) with 60. change (to_u64 100) with 100.
  rewrite (to_u64_small (nbname path)) by lia.
  unfold u64_add at 1. destruct (Z.ltb_spec (nbname path + 60) (2 ^ 64)); [|lia]. cbn [rbind].
  unfold u64_add at 1. destruct (Z.ltb_spec (nbname path + 60 + 100) (2 ^ 64)); [|lia]. cbn [rbind].
  rewrite to_u64_small by lia. destruct (Z.ltb_spec (100 + nbname path + 60) (nbname path + 60 + 100)); [lia|].
  rewrite read_at_short by lia. reflexivity.
Qed.

(** [read_dir_info] either finds the record or rejects its length. *)
Lemma read_dir_gen D h d path pad :
  path_ok path -> fh_version h = 63002 -> fh_begin h = 100 -> fh_nbname h = nbname path ->
  E0 path <= fh_end h < 2 ^ 63 -> dir_ok d -> dir_big d = false -> d_nbname d = nbname path ->
  seg D 100 (name_rec path ++ dirb d ++ pad) -> zlen pad = 12 ->
  read_dir_info D h = if 1000 <? nbname path then Err EDirInfo else Ok (dir_open path d).
Proof.
  intros P V B N He DO DB DN S LP. pose proof (E0_pos path P) as HE0. unfold E0 in He, HE0.
  destruct (dirb_ok d DO) as (LD & _ & _ & RD). unfold dir_len in LD. rewrite DB in LD.
  pose proof (name_rec_len path P) as LN.
  unfold read_dir_info. rewrite V, B, N. change (record_size 63002) with 60. change (to_u64 100) with 100.
  rewrite (to_u64_small (nbname path)) by lia.
  unfold u64_add at 1. destruct (Z.ltb_spec (nbname path + 60) (2 ^ 64)); [|lia]. cbn [rbind].
  unfold u64_add at 1. destruct (Z.ltb_spec (nbname path + 60 + 100) (2 ^ 64)); [|lia]. cbn [rbind].
  rewrite to_u64_small by lia. destruct (Z.ltb_spec (fh_end h) (nbname path + 60 + 100)); [lia|].
  rewrite (read_at_seg _ _ _ _ S); [|rewrite !zlen_app, LN, LD, LP; lia|lia]. cbn [rbind].
  rewrite zsub_tail by exact LN. rewrite (reads_rrun _ _ _ _ _ RD). cbn [rbind].
  destruct (tkey_ok path P) as [K L]. destruct (khdr_split _ K eq_refl) as (x & Lx & EX).
  unfold name_rec. rewrite EX. rewrite <- !app_assoc.
  rewrite zsub_tail by apply zlen_be.
  rewrite (reads_rrun read_i16 (be 2 4) 4); [|intros sk; apply (reads_sint 2); [lia|red; cbn; lia]]. cbn [rbind].
  change (1000 <? 4) with false. cbv iota zeta. change (4 + 2 + 8 + 4 + 8) with 26.
  match goal with |- context [zlen ?l <? 26] => set (data := l) end.
  assert (LL : 26 <= zlen data).
  { unfold data. rewrite !zlen_app, !zlen_be, Lx. pose proof (zlen_nonneg (str_bytes (k_class (tkey path)))).
    pose proof (zlen_nonneg (str_bytes (k_name (tkey path)))). pose proof (zlen_nonneg (str_bytes (k_title (tkey path)))).
    pose proof (zlen_nonneg (str_bytes path)). pose proof (zlen_nonneg (str_bytes [])). lia. }
  destruct (Z.ltb_spec (zlen data) 26); [lia|].
  replace data with ((be 4 (k_nbytes (tkey path)) ++ be 2 4 ++ x) ++
     (str_bytes (bs "TFile") ++ str_bytes path ++ str_bytes []) ++ str_bytes path ++ str_bytes [] ++ dirb d ++ pad)
    by (unfold data; rewrite <- !app_assoc; reflexivity).
  rewrite zsub_tail by (rewrite !zlen_app, !zlen_be, Lx; reflexivity).
  rewrite (reads_rrun _ (str_bytes (bs "TFile") ++ str_bytes path ++ str_bytes []) (bs "TFile", path, [])).
  2: { intros sk. destruct P as [P _].
       eapply reads_bind; [apply reads_str; str_lit|].
       eapply reads_bind; [now apply reads_str|].
       rewrite <- (app_nil_r (str_bytes [])).
       eapply reads_bind; [apply reads_str; exact str_ok_nil|apply reads_ret]. }
  cbn [rbind]. change (d_nbname (dir_seen d)) with (d_nbname d). rewrite DN.
  assert (nbname path <? 10 = false) as -> by lia. reflexivity.
Qed.

Lemma open_unsaved path x : path_ok path ->
  exists e, open_file (base path (hdr0 path) (dir0 path) ++ x) = Err e.
Proof.
  intros P. destruct (hdr0_ok path P) as (HO & HB). pose proof (E0_pos path P) as HE0.
  assert (DO : dir_ok (dir0 path)) by (apply (dir0_ok path [] 0 0 P); red; lia).
  assert (DB : dir_big (dir0 path) = false) by reflexivity.
  pose proof (base_len path _ _ P HO HB DO DB) as LB.
  set (D := base path (hdr0 path) (dir0 path) ++ x).
  assert (S0 : seg D 0 (hdrb (hdr0 path))).
  { exists [], ((repeat 0 37 ++ name_rec path ++ dirb (dir0 path)) ++ x). split; [|reflexivity].
    unfold D, base. now rewrite <- !app_assoc. }
  assert (LD : zlen D = E0 path - 12 + zlen x) by (unfold D; rewrite zlen_app, LB; reflexivity).
  pose proof (zlen_nonneg x).
  destruct (Z.ltb_spec (zlen D) (E0 path)) as [Hs|Hs].
  { exists EIo. apply (open_short D path P S0). lia. }
  destruct (zsub_split x 0 12) as (a & c & E & LA); [lia|lia|lia|]. apply zlen_0_nil in LA. subst a. cbn [app] in E.
  assert (LP : zlen (zsub x 0 12) = 12) by (apply zsub_length; lia).
  assert (S1 : seg D 100 (name_rec path ++ dirb (dir0 path) ++ zsub x 0 12)).
  { exists (hdrb (hdr0 path) ++ repeat 0 37), c. split.
    - unfold D, base. rewrite E at 1. now rewrite <- !app_assoc.
    - rewrite zlen_app, zlen_repeat. destruct (hdrb_ok _ HO) as (-> & _). unfold fhdr_len. rewrite HB. reflexivity. }
  destruct (open_start D _ HO S0) as (b & E1 & E2); [lia|].
  unfold open_file. rewrite E1. cbn [rbind]. rewrite E2. cbn [rbind].
  rewrite (read_dir_gen D (hdr0 path) (dir0 path) path (zsub x 0 12)); try assumption; try reflexivity;
    [|cbn [hdr0 fh_end]; lia].
  destruct (1000 <? nbname path); [now eexists|]. cbn [rbind].
  change (0 <? fh_seekfree (hdr0 path)) with false. change (0 <? fh_seekinfo (hdr0 path)) with false. cbv iota. cbn [rbind].
  unfold read_keys. change (d_seekkeys (dir_open path (dir0 path))) with 0. now eexists.
Qed.

Definition accepted (d : bytes) : Prop := exists f, open_file d = Ok f.

(** No crash before the directory is saved leaves a file that opens. *)
Lemma unsaved_refused path rest l r : path_ok path -> Forall (fun w => E0 path <= fst w) rest ->
  create_log path ++ rest = l ++ r -> ~ accepted (disk_of l).
Proof.
  intros P F E [f H]. pose proof (E0_pos path P) as HE0.
  destruct (hdr0_ok path P) as (HO & HB).
  assert (DO : dir_ok (dir0 path)) by (apply (dir0_ok path [] 0 0 P); red; lia).
  assert (DB : dir_big (dir0 path) = false) by reflexivity.
  pose proof (base_len path _ _ P HO HB DO DB) as LB.
  assert (C : l = [] \/ l = [(0, repeat 0 100)] \/ l = [(0, repeat 0 100); (0, hdrb (hdr0 path))] \/
              l = [(0, repeat 0 100); (0, hdrb (hdr0 path)); (100, khdr (tkey path))] \/
              exists l', l = create_log path ++ l' /\ rest = l' ++ r).
  { unfold create_log in *. cbn [app] in E.
    destruct l as [|w1 l]; [auto|]. injection E as <- E. right.
    destruct l as [|w2 l]; [auto|]. injection E as <- E. right.
    destruct l as [|w3 l]; [auto|]. injection E as <- E. right.
    destruct l as [|w4 l]; [auto|]. injection E as <- E. right. exists l. auto. }
  destruct (hdrb_ok _ HO) as (LH & _). unfold fhdr_len in LH. rewrite HB in LH.
  assert (D2 : disk_of [(0, repeat 0 100); (0, hdrb (hdr0 path))] = hdrb (hdr0 path) ++ repeat 0 37).
  { unfold disk_of. cbn [fold_left fst snd]. change (dwrite [] 0 (repeat 0 100)) with (repeat 0 100).
    change (repeat 0 100) with ([] ++ repeat 0 63 ++ repeat 0 37).
    rewrite dwrite_mid; [reflexivity|reflexivity|now rewrite LH, zlen_repeat]. }
  destruct (tkey_ok path P) as [K L]. destruct (khdr_ok _ K) as (LK & _).
  destruct C as [->|[->|[->|[->|(l' & -> & ->)]]]].
  - vm_compute in H. discriminate.
  - vm_compute in H. discriminate.
  - rewrite D2 in H. rewrite (open_short _ path) in H; [discriminate|exact P| |].
    + exists [], (repeat 0 37). split; reflexivity.
    + rewrite zlen_app, LH, zlen_repeat. lia.
  - change [(0, repeat 0 100); (0, hdrb (hdr0 path)); (100, khdr (tkey path))]
      with ([(0, repeat 0 100); (0, hdrb (hdr0 path))] ++ [(100, khdr (tkey path))]) in H.
    rewrite disk_of_snoc, D2 in H. cbn [fst snd] in H.
    rewrite dwrite_append in H by (rewrite zlen_app, LH, zlen_repeat; reflexivity).
    rewrite (open_short _ path) in H; [discriminate|exact P| |].
    + exists [], (repeat 0 37 ++ khdr (tkey path)). split; [now rewrite <- app_assoc|reflexivity].
    + pose proof (name_rec_len path P) as LN. unfold name_rec in LN. rewrite !zlen_app in LN.
      pose proof (zlen_nonneg (str_bytes path)). pose proof (zlen_nonneg (str_bytes [])).
      pose proof (zlen_nonneg (khdr (tkey path))).
      rewrite !zlen_app, LH, zlen_repeat. unfold E0. lia.
  - rewrite disk_of_app, disk_create in H by exact P.
    apply Forall_app in F as [F _].
    destruct (fold_keeps l' (base path (hdr0 path) (dir0 path)) []) as (y & E').
    { eapply Forall_impl; [|exact F]. intros w Hw. cbv beta in *. lia. }
    rewrite app_nil_r in E'. rewrite E' in H.
    destruct (open_unsaved path y P) as (e & HE). congruence.
Qed.

(** ** After the directory is saved *)
Section Closed.
Variables (path : bytes) (keys : list key) (recs : list bytes) (log : list (Z * bytes)) (sbuf : bytes) (sis : list sinfo).
Hypothesis (P : path_ok path) (G : Forall key_good keys) (Hn : zlen keys < 2 ^ 31) (L : lay_log path recs log).
Let e := E0 path + rsize recs.
Hypothesis (He : fh_end (hdr1 path keys sbuf e) <= kStartBigFile).

Let kk := kkey path keys e.
Let e1 := e + k_nbytes kk.
Let ks := skey sbuf e1.
Let e2 := e1 + k_nbytes ks.
Let kf := fkey path e2.
Let e3 := e2 + k_nbytes kf.
Let h1 := hdr1 path keys sbuf e.
Let d1 := dir1 path keys e.

Lemma closed_sizes : 190 < E0 path <= e /\ e < e1 /\ e1 < e2 /\ e2 < e3 /\ e3 <= 2000000000 /\
  key_good kk /\ key_good ks /\ key_good kf /\
  zlen (rec kk) = k_nbytes kk /\ zlen (rec ks) = k_nbytes ks /\ zlen (rec kf) = k_nbytes kf.
Proof.
  pose proof (E0_pos path P) as HE0. pose proof (rsize_nonneg recs) as Hr.
  unfold hdr1 in He. cbn [fh_end] in He. cbv zeta in He. fold kk e1 ks e2 kf e3 in He.
  pose proof (zlen_nonneg sbuf) as Zs. pose proof (zlen_nonneg (keys_buf keys)) as Zk.
  pose proof (key_len_pos _ _ _ names_ok_si) as Ls. fold si_keylen in Ls.
  pose proof (key_len_pos _ _ _ (names_ok_dir path P)) as Lk.
  pose proof (key_len_pos _ _ _ (names_ok_file path P)) as Lf. fold (path_keylen path) in Lf.
  assert (Nk : k_nbytes kk = key_len_for path [] (bs "TDirectory") false + zlen (keys_buf keys)) by reflexivity.
  assert (Ns : k_nbytes ks = si_keylen + zlen sbuf) by reflexivity.
  assert (Nf : k_nbytes kf = path_keylen path + zlen (seg_buf (e2 + (path_keylen path + 10)))) by reflexivity.
  pose proof (zlen_nonneg (seg_buf (e2 + (path_keylen path + 10)))) as Zf.
  assert (D0 : e = E0 path + rsize recs) by reflexivity.
  assert (D1 : e1 = e + k_nbytes kk) by reflexivity. assert (D2 : e2 = e1 + k_nbytes ks) by reflexivity.
  assert (D3 : e3 = e2 + k_nbytes kf) by reflexivity.
  assert (KG : key_good kk) by (apply kkey_good; [exact P|lia|fold kk; unfold kStartBigFile in *; lia]).
  assert (SG : key_good ks) by (apply skey_good; [lia|fold ks; unfold kStartBigFile in *; lia]).
  assert (FG : key_good kf) by (apply fkey_good; [exact P|lia|fold kf; unfold kStartBigFile in *; lia]).
  unfold kStartBigFile in *.
  repeat match goal with |- _ /\ _ => split end; try assumption; try lia; now apply rec_len.
Qed.

Lemma d1_ok : dir_ok d1 /\ dir_big d1 = false.
Proof.
  destruct closed_sizes as (B0 & B1 & B2 & B3 & B4 & KG & SG & FG & LK & LS & LF).
  split; [|reflexivity]. apply dir0_ok; [exact P|red; lia|fold kk].
  assert (D1 : e1 = e + k_nbytes kk) by reflexivity. red. lia.
Qed.

Lemma rec_append l rs k b : disk_of l = b ++ tail rs -> zlen b = E0 path - 12 -> key_ok k ->
  k_seek k = E0 path + rsize rs -> k_keylen k = zlen (khdr k) ->
  disk_of (l ++ rec_writes k) = b ++ tail (rs ++ [rec k]).
Proof.
  intros D LB K E1 E2. unfold rec_writes, rec. rewrite E1, E2. apply log_append; auto. now apply khdr_nonempty.
Qed.
Lemma rec_append1 l rs k b : disk_of l = b ++ tail rs -> zlen b = E0 path - 12 -> key_ok k ->
  k_seek k = E0 path + rsize rs ->
  disk_of (l ++ [(k_seek k, khdr k)]) = b ++ tail (rs ++ [khdr k]).
Proof.
  intros D LB K E1.
  pose proof (log_append l b rs (E0 path) (khdr k) [] D LB (khdr_nonempty k K)) as H.
  rewrite app_nil_r, <- E1 in H. rewrite <- H.
  change [(k_seek k, khdr k); (k_seek k + zlen (khdr k), [])] with ([(k_seek k, khdr k)] ++ [(k_seek k + zlen (khdr k), [])]).
  rewrite app_assoc, (disk_of_snoc (l ++ [(k_seek k, khdr k)])). reflexivity.
Qed.

Let b0 := base path (hdr0 path) (dir0 path).
Let b1 := base path (hdr0 path) d1.

Lemma dir_write rs l : disk_of l = b0 ++ tail rs -> disk_of (l ++ [(100 + nbname path, dirb d1)]) = b1 ++ tail rs.
Proof.
  intros D. destruct d1_ok as (DO & DB). destruct (hdr0_ok path P) as (HO & HB).
  destruct (hdrb_ok _ HO) as (LH & _). unfold fhdr_len in LH. rewrite HB in LH.
  destruct (dirb_ok _ DO) as (LD & _). unfold dir_len in LD. rewrite DB in LD.
  assert (DO0 : dir_ok (dir0 path)) by (apply (dir0_ok path [] 0 0 P); red; lia).
  destruct (dirb_ok _ DO0) as (LD0 & _). unfold dir_len in LD0. change (dir_big (dir0 path)) with false in LD0.
  pose proof (name_rec_len path P) as LN.
  rewrite disk_of_snoc, D. cbn [fst snd]. unfold b0, b1, base.
  replace ((hdrb (hdr0 path) ++ repeat 0 37 ++ name_rec path ++ dirb (dir0 path)) ++ tail rs)
    with ((hdrb (hdr0 path) ++ repeat 0 37 ++ name_rec path) ++ dirb (dir0 path) ++ tail rs) by now rewrite <- !app_assoc.
  rewrite dwrite_mid; [now rewrite <- !app_assoc| |rewrite LD0, LD; reflexivity].
  rewrite !zlen_app, LH, zlen_repeat, LN. lia.
Qed.

Lemma b_len : zlen b0 = E0 path - 12 /\ zlen b1 = E0 path - 12 /\ zlen (base path h1 d1) = E0 path - 12.
Proof.
  destruct d1_ok as (DO & DB). destruct (hdr0_ok path P) as (HO & HB).
  assert (DO0 : dir_ok (dir0 path)) by (apply (dir0_ok path [] 0 0 P); red; lia).
  assert (E0 path <= e) by apply closed_sizes.
  destruct (hdr1_ok path keys sbuf e P) as (HO1 & HB1); [assumption|exact He|].
  split; [now apply base_len|]. split; now apply base_len.
Qed.

Let log1 := log ++ rec_writes kk ++ [(100 + nbname path, dirb d1)].

Lemma disk_saved : disk_of log1 = b1 ++ tail (recs ++ [rec kk]).
Proof.
  destruct closed_sizes as (B0 & B1 & B2 & B3 & B4 & KG & SG & FG & LK & LS & LF). destruct b_len as (L0 & L1 & _).
  destruct L as [_ D]. unfold log1. rewrite app_assoc. apply dir_write. apply rec_append; auto.
  - apply KG.
  - symmetry. now apply key_good_hdr.
Qed.

(** Every crash point from saving the directory up to rewriting the header. *)
Lemma window_disk l r : rec_writes ks ++ rec_writes kf = l ++ r ->
  exists x, disk_of (log1 ++ l) = b1 ++ repeat 0 12 ++ concat recs ++ rec kk ++ x.
Proof.
  destruct closed_sizes as (B0 & B1 & B2 & B3 & B4 & KG & SG & FG & LK & LS & LF). destruct b_len as (L0 & L1 & _).
  assert (D1 : e1 = e + k_nbytes kk) by reflexivity. assert (D2 : e2 = e1 + k_nbytes ks) by reflexivity.
  assert (D3 : e3 = e2 + k_nbytes kf) by reflexivity.
  pose proof (zlen_nonneg (khdr ks)). pose proof (zlen_nonneg (khdr kf)).
  intros E.
  assert (F : Forall (fun w : Z * bytes => e1 <= fst w) l).
  { assert (F : Forall (fun w : Z * bytes => e1 <= fst w) (l ++ r)); [|apply Forall_app in F; apply F].
    rewrite <- E. unfold rec_writes. cbn [app].
    assert (0 <= k_keylen ks /\ 0 <= k_keylen kf).
    { pose proof (key_len_pos _ _ _ names_ok_si). pose proof (key_len_pos _ _ _ (names_ok_file path P)).
      change (k_keylen ks) with (key_len_for si_kname si_title (bs "TList") false).
      change (k_keylen kf) with (key_len_for path [] (bs "TFile") false). lia. }
    change (k_seek ks) with e1. change (k_seek kf) with e2.
    repeat constructor; cbn [fst]; lia. }
  rewrite disk_of_app, disk_saved, tail_snoc.
  destruct (fold_keeps l (b1 ++ repeat 0 12 ++ concat recs ++ rec kk) []) as (y & EY).
  { eapply Forall_impl; [|exact F]. intros w Hw. cbv beta in *. rewrite !zlen_app, L1, zlen_repeat, LK.
    unfold e in *. unfold rsize in *. lia. }
  rewrite app_nil_r in EY. rewrite EY. exists y. now rewrite <- !app_assoc.
Qed.

Lemma opens_window x : nbname path <= 1000 ->
  zlen (b1 ++ repeat 0 12 ++ concat recs ++ rec kk ++ x) < 2 ^ 63 ->
  open_file (b1 ++ repeat 0 12 ++ concat recs ++ rec kk ++ x) =
  Ok (mkFile (IORead (b1 ++ repeat 0 12 ++ concat recs ++ rec kk ++ x)) (hdr0 path)
        (d_set_keys (dir_open path d1) (map key_listed keys)) [] [] []).
Proof.
  intros HN HD. set (D := b1 ++ _) in *.
  destruct closed_sizes as (B0 & B1 & B2 & B3 & B4 & KG & SG & FG & LK & LS & LF). destruct b_len as (L0 & L1 & _).
  destruct d1_ok as (DO & DB). destruct (hdr0_ok path P) as (HO & HB).
  destruct (hdrb_ok _ HO) as (LH & _). unfold fhdr_len in LH. rewrite HB in LH.
  apply open_ok. constructor; try assumption; try reflexivity.
  - split; [|exact HD]. unfold D. rewrite zlen_app, L1. pose proof (zlen_nonneg (repeat 0 12 ++ concat recs ++ rec kk ++ x)). lia.
  - exists [], ((repeat 0 37 ++ name_rec path ++ dirb d1) ++ repeat 0 12 ++ concat recs ++ rec kk ++ x).
    split; [|reflexivity]. unfold D, b1, base. now rewrite <- !app_assoc.
  - cbn [hdr0 fh_end]. lia.
  - exists (repeat 0 12). split; [reflexivity|].
    exists (hdrb (hdr0 path) ++ repeat 0 37), (concat recs ++ rec kk ++ x). split.
    + unfold D, b1, base. now rewrite <- !app_assoc.
    + rewrite zlen_app, LH, zlen_repeat. reflexivity.
  - change (d_seekkeys d1) with e. lia.
  - change (d_seekkeys d1) with e. fold kk e1. unfold kStartBigFile. lia.
  - change (d_seekkeys d1) with e. fold kk.
    exists (b1 ++ repeat 0 12 ++ concat recs), x. split; [unfold D; now rewrite <- !app_assoc|].
    rewrite !zlen_app, L1, zlen_repeat. unfold e, rsize. lia.
Qed.

(** The finished file. *)
Lemma disk_closed :
  disk_of (log ++ close_log path keys sbuf e) = base path h1 d1 ++ tail (recs ++ [rec kk; rec ks; rec kf]) /\
  zlen (disk_of (log ++ close_log path keys sbuf e)) = e3.
Proof.
  destruct closed_sizes as (B0 & B1 & B2 & B3 & B4 & KG & SG & FG & LK & LS & LF). destruct b_len as (L0 & L1 & L2).
  assert (D1 : e1 = e + k_nbytes kk) by reflexivity. assert (D2 : e2 = e1 + k_nbytes ks) by reflexivity.
  assert (D3 : e3 = e2 + k_nbytes kf) by reflexivity.
  assert (D0 : e = E0 path + rsize recs) by reflexivity.
  destruct (hdr1_ok path keys sbuf e P) as (HO1 & HB1); [lia|exact He|]. fold h1 in HO1, HB1.
  destruct (hdr0_ok path P) as (HO & HB).
  destruct (hdrb_ok _ HO) as (LH & _). unfold fhdr_len in LH. rewrite HB in LH.
  destruct (hdrb_ok _ HO1) as (LH1 & _). unfold fhdr_len in LH1. rewrite HB1 in LH1.
  assert (A1 : disk_of (log1 ++ rec_writes ks) = b1 ++ tail ((recs ++ [rec kk]) ++ [rec ks])).
  { apply rec_append; auto using disk_saved.
    - apply SG.
    - rewrite rsize_snoc, LK. change (k_seek ks) with e1. lia.
    - symmetry. now apply key_good_hdr. }
  assert (A2 : disk_of ((log1 ++ rec_writes ks) ++ rec_writes kf) = b1 ++ tail (((recs ++ [rec kk]) ++ [rec ks]) ++ [rec kf])).
  { apply rec_append; auto.
    - apply FG.
    - rewrite !rsize_snoc, LK, LS. change (k_seek kf) with e2. lia.
    - symmetry. now apply key_good_hdr. }
  assert (EL : log ++ close_log path keys sbuf e = (((log1 ++ rec_writes ks) ++ rec_writes kf) ++ [(0, repeat 0 100)]) ++ [(0, hdrb h1)]).
  { unfold close_log, log1. cbv zeta. fold kk e1 ks e2 kf d1 h1. rewrite <- !app_assoc. reflexivity. }
  assert (ED : disk_of (log ++ close_log path keys sbuf e) = base path h1 d1 ++ tail (recs ++ [rec kk; rec ks; rec kf])).
  { rewrite EL, !disk_of_snoc, A2. cbn [fst snd].
    replace (recs ++ [rec kk; rec ks; rec kf]) with (((recs ++ [rec kk]) ++ [rec ks]) ++ [rec kf]) by now rewrite <- !app_assoc.
    set (t := tail _). unfold b1, base.
    replace ((hdrb (hdr0 path) ++ repeat 0 37 ++ name_rec path ++ dirb d1) ++ t)
      with ([] ++ (hdrb (hdr0 path) ++ repeat 0 37) ++ (name_rec path ++ dirb d1) ++ t) by now rewrite <- !app_assoc.
    rewrite dwrite_mid; [|reflexivity|rewrite zlen_app, LH, !zlen_repeat; reflexivity].
    change (repeat 0 100) with (repeat 0 63 ++ repeat 0 37).
    replace ([] ++ (repeat 0 63 ++ repeat 0 37) ++ (name_rec path ++ dirb d1) ++ t)
      with ([] ++ repeat 0 63 ++ repeat 0 37 ++ (name_rec path ++ dirb d1) ++ t) by now rewrite <- !app_assoc.
    rewrite dwrite_mid; [|reflexivity|now rewrite LH1, zlen_repeat]. cbn [app]. now rewrite <- !app_assoc. }
  split; [exact ED|]. rewrite ED.
  replace (recs ++ [rec kk; rec ks; rec kf]) with (((recs ++ [rec kk]) ++ [rec ks]) ++ [rec kf]) by now rewrite <- !app_assoc.
  rewrite tail_snoc, !concat_app. cbn [concat]. rewrite !app_nil_r, !zlen_app, L2, zlen_repeat, LK, LS, LF.
  unfold rsize in D0. lia.
Qed.

Let D := disk_of (log ++ close_log path keys sbuf e).

Lemma closed_segs : seg D 0 (hdrb h1) /\ seg D 100 (name_rec path ++ dirb d1 ++ repeat 0 12) /\
  seg D (E0 path) (concat recs) /\ seg D e (rec kk) /\ seg D e1 (rec ks) /\ seg D e2 (rec kf).
Proof.
  destruct closed_sizes as (B0 & B1 & B2 & B3 & B4 & KG & SG & FG & LK & LS & LF). destruct b_len as (L0 & L1 & L2).
  assert (D1 : e1 = e + k_nbytes kk) by reflexivity. assert (D2 : e2 = e1 + k_nbytes ks) by reflexivity.
  assert (D3 : e3 = e2 + k_nbytes kf) by reflexivity.
  assert (D0 : e = E0 path + rsize recs) by reflexivity.
  destruct (hdr1_ok path keys sbuf e P) as (HO1 & HB1); [lia|exact He|]. fold h1 in HO1, HB1.
  destruct (hdrb_ok _ HO1) as (LH1 & _). unfold fhdr_len in LH1. rewrite HB1 in LH1.
  destruct disk_closed as (ED & _). fold D in ED.
  replace (recs ++ [rec kk; rec ks; rec kf]) with (((recs ++ [rec kk]) ++ [rec ks]) ++ [rec kf]) in ED by now rewrite <- !app_assoc.
  rewrite tail_snoc, !concat_app in ED. cbn [concat] in ED. rewrite !app_nil_r in ED.
  assert (L3 : zlen (base path h1 d1 ++ repeat 0 12) = E0 path) by (rewrite zlen_app, L2, zlen_repeat; lia).
  unfold rsize in D0.
  repeat match goal with |- _ /\ _ => split end.
  - eexists [], _. split; [|reflexivity]. rewrite ED. unfold base. rewrite <- !app_assoc. reflexivity.
  - eexists (hdrb h1 ++ repeat 0 37), _. split; [rewrite ED; unfold base; rewrite <- !app_assoc; reflexivity|].
    rewrite zlen_app, LH1, zlen_repeat. reflexivity.
  - eexists (base path h1 d1 ++ repeat 0 12), _. split; [rewrite ED, <- !app_assoc; reflexivity|exact L3].
  - eexists ((base path h1 d1 ++ repeat 0 12) ++ concat recs), _. split; [rewrite ED, <- !app_assoc; reflexivity|].
    rewrite zlen_app, L3. lia.
  - eexists (((base path h1 d1 ++ repeat 0 12) ++ concat recs) ++ rec kk), _. split; [rewrite ED, <- !app_assoc; reflexivity|].
    rewrite !zlen_app in *. lia.
  - exists ((((base path h1 d1 ++ repeat 0 12) ++ concat recs) ++ rec kk) ++ rec ks), []. split; [rewrite ED, app_nil_r, <- !app_assoc; reflexivity|].
    rewrite !zlen_app in *. lia.
Qed.

(** Any disk with these pieces in place is opened in the same way. *)
Lemma opens_segs D' : zlen D' < 2 ^ 63 -> seg D' 0 (hdrb h1) -> seg D' 100 (name_rec path ++ dirb d1 ++ repeat 0 12) ->
  seg D' e (rec kk) -> seg D' e1 (rec ks) -> seg D' e2 (rec kf) ->
  nbname path <= 1000 -> Forall sinfo_ok sis -> zlen sis < 2 ^ 31 ->
  wrun si_keylen (sinfos_marshal sis) = Ok sbuf -> 3 <= zlen sbuf ->
  open_file D' = Ok (mkFile (IORead D') h1 (d_set_keys (dir_open path d1) (map key_listed keys))
    [mkSeg (fh_end h1) kStartBigFile] (map sinfo_seen (rev sis)) []).
Proof.
  intros LD S0 S1 SK SS SF HN SO SL SW S3. pose proof (seg_bound _ _ _ S1) as LB. pose proof (zlen_nonneg (name_rec path ++ dirb d1 ++ repeat 0 12)) as LN.
  destruct closed_sizes as (B0 & B1 & B2 & B3 & B4 & KG & SG & FG & LK & LS & LF). destruct b_len as (L0 & L1 & L2).
  assert (D1 : e1 = e + k_nbytes kk) by reflexivity. assert (D2 : e2 = e1 + k_nbytes ks) by reflexivity.
  assert (D3 : e3 = e2 + k_nbytes kf) by reflexivity.
  destruct d1_ok as (DO & DB). destruct (hdr1_ok path keys sbuf e P) as (HO1 & HB1); [lia|exact He|]. fold h1 in HO1, HB1.
  apply open_ok. constructor; try assumption; try reflexivity.
  - lia.
  - change (fh_end h1) with e3. lia.
  - exists (repeat 0 12). split; [reflexivity|exact S1].
  - change (d_seekkeys d1) with e. lia.
  - change (d_seekkeys d1) with e. fold kk e1. unfold kStartBigFile. lia.
  - change (fh_seekfree h1) with e2. destruct (Z.ltb_spec 0 e2); [|lia].
    change (fh_end h1) with (e2 + k_nbytes (fkey path e2)).
    apply read_free_ok; try assumption; try reflexivity; lia.
  - change (fh_seekinfo h1) with e1. destruct (Z.ltb_spec 0 e1); [|lia].
    apply (read_sinfos_ok D' h1 sis sbuf e1); try assumption; try reflexivity;
      try (change (fh_end h1) with e3; lia). fold ks. unfold kStartBigFile. lia.
Qed.

Lemma opens_closed : nbname path <= 1000 -> Forall sinfo_ok sis -> zlen sis < 2 ^ 31 ->
  wrun si_keylen (sinfos_marshal sis) = Ok sbuf -> 3 <= zlen sbuf ->
  open_file D = Ok (mkFile (IORead D) h1 (d_set_keys (dir_open path d1) (map key_listed keys))
    [mkSeg (fh_end h1) kStartBigFile] (map sinfo_seen (rev sis)) []).
Proof.
  destruct closed_segs as (S0 & S1 & S2 & SK & SS & SF). destruct disk_closed as (_ & LD). fold D in LD. intros. apply opens_segs; try assumption.
  rewrite LD. change e3 with (fh_end h1). pose proof He as He'. fold h1 in He'. unfold kStartBigFile in He'. lia.
Qed.

(** The header is zero between the last two writes. *)
Lemma zeroed_panics : open_file (disk_of (((log1 ++ rec_writes ks) ++ rec_writes kf) ++ [(0, repeat 0 100)])) = Panic.
Proof.
  rewrite disk_of_snoc. cbn [fst snd].
  set (d := disk_of _). assert (LD : 100 <= zlen d).
  { destruct (window_disk (rec_writes ks ++ rec_writes kf) []) as (x & E); [now rewrite app_nil_r|].
    rewrite app_assoc in E. unfold d. rewrite E, zlen_app. destruct b_len as (_ & -> & _). pose proof (E0_pos path P).
    pose proof (zlen_nonneg (repeat 0 12 ++ concat recs ++ rec kk ++ x)). lia. }
  destruct (zsub_split d 0 100) as (a & c & E & LA); [lia|lia|lia|]. apply zlen_0_nil in LA. subst a. cbn [app] in E.
  assert (LP : zlen (zsub d 0 100) = 100) by (apply zsub_length; lia).
  rewrite E. rewrite <- (app_nil_l (zsub d 0 100 ++ c)).
  rewrite dwrite_mid; [|reflexivity|rewrite LP, zlen_repeat; reflexivity]. cbn [app].
  unfold open_file. rewrite (read_at_seg _ 0 76 (repeat 0 76)); [|exists [], (repeat 0 24 ++ c); split; reflexivity|reflexivity|lia].
  reflexivity.
Qed.
End Closed.
