(** Opening a file that holds the records [close] writes. *)
From Verif Require Export FileClose.

(** ** Reading back what a writer left *)
Lemma sim0_rrun {X V} A (wm : W X) (rm : R V) v off b : sim0 [] A wm rm v ->
  wrun off wm = Ok b -> 0 <= off -> off + zlen b < 2 ^ 31 -> rrun off rm b = Ok v.
Proof.
  intros H HW Ho Hb. unfold wrun in HW.
  destruct (H (w_new off) I Ho) as (x & s' & w & E & Ep & Eo & _ & _ & HR); [reflexivity|intros ? []|].
  rewrite E in HW. injection HW as <-. cbn [w_new wp app] in Ep. rewrite Ep in *.
  assert (P : wpos s' < 2 ^ 31) by (unfold wpos; rewrite Ep, Eo; cbn [w_new woff]; lia).
  specialize (HR P [] [] off [] None). cbn [w_new woff] in HR. unfold wpos at 1 in HR. cbn [wp] in HR.
  rewrite (@zlen_nil Z) in HR.
  destruct (HR eq_refl) as (rr' & HR' & _).
  { unfold refs_ok. cbn. intros; contradiction || discriminate. }
  rewrite app_nil_r in HR'. cbn [app] in HR'. unfold rrun, r_new. rewrite HR'. reflexivity.
Qed.

(** The header of an ordinary key, piece by piece. *)
Lemma khdr_split k : key_ok k -> k_rvers k = 4 ->
  exists x, zlen x = 20 /\ khdr k = be 4 (k_nbytes k) ++ be 2 4 ++ x ++
    str_bytes (k_class k) ++ str_bytes (k_name k) ++ str_bytes (k_title k).
Proof.
  intros K V. destruct (khdr_ok k K) as (_ & _ & HW & _).
  destruct K as (Hn & Hr & Ho & Hd & Hkl & Hc & Hbig & Hs & Sc & Sn & St).
  assert (exists wd, zlen wd = 4 /\ writes (write_date (k_date k)) wd) as (wd & Ld & Wd).
  { destruct (rt_date (k_date k) Hd) as (wd & L & W & _). eauto. }
  exists (be 4 (k_objlen k) ++ wd ++ be 2 (to_i16 (k_keylen k)) ++ be 2 (k_cycle k) ++
          be 4 (to_i32 (k_seek k)) ++ be 4 (to_i32 (k_pdir k))).
  split; [rewrite !zlen_app, !zlen_be, Ld; reflexivity|].
  unfold khdr. apply writes_wbytes. unfold key_marshal.
  destruct (Z.ltb_spec (k_nbytes k) 0); [lia|]. rewrite V in *.
  assert (kStartBigFile <? k_seek k = false) as -> by lia. cbn [andb].
  change (1000 <? 4) with false. cbv iota.
  eapply writes_bind; [apply (writes_int 4)|intros _].
  eapply writes_bind; [apply (writes_int 2)|intros _]. rewrite <- !app_assoc.
  eapply writes_bind; [apply (writes_int 4)|intros _].
  eapply writes_bind; [exact Wd|intros _].
  eapply writes_bind; [apply (writes_int 2)|intros _].
  eapply writes_bind; [apply (writes_int 2)|intros _].
  rewrite app_assoc.
  eapply writes_bind; [eapply writes_bind; [apply (writes_int 4)|intros _; apply (writes_int 4)]|intros _].
  eapply writes_bind; [now apply writes_str|intros _].
  eapply writes_bind; [now apply writes_str|intros _]. now apply writes_str.
Qed.

Lemma reads_str s sk : str_ok s -> reads_sk sk read_string (str_bytes s) s.
Proof. intros [L U]. apply reads_string; [lia|exact U]. Qed.

(** ** The record at the start *)
Definition dir_open (path : bytes) (d : dirf) : dirf := d_set_names (dir_seen d) (bs "TFile") path [].

Lemma zsub_tail {A} (a b : list A) p : zlen a = p -> zsub (a ++ b) p (zlen (a ++ b) - p) = b.
Proof.
  intros <-. rewrite zlen_app. replace (zlen a + zlen b - zlen a) with (zlen b) by lia.
  rewrite <- (app_nil_r b) at 1. apply zsub_mid.
Qed.

Lemma read_dir_ok D h d path pad :
  path_ok path -> nbname path <= 1000 -> fh_version h = 63002 -> fh_begin h = 100 -> fh_nbname h = nbname path ->
  E0 path <= fh_end h < 2 ^ 63 -> dir_ok d -> dir_big d = false -> d_nbname d = nbname path ->
  seg D 100 (name_rec path ++ dirb d ++ pad) -> zlen pad = 12 -> zlen D < 2 ^ 63 ->
  read_dir_info D h = Ok (dir_open path d).
Proof.
  intros P PL V B N He DO DB DN S LP HD. pose proof (E0_pos path P) as HE0. unfold E0 in He, HE0.
  destruct (dirb_ok d DO) as (LD & _ & _ & RD). unfold dir_len in LD. rewrite DB in LD.
  pose proof (name_rec_len path P) as LN.
  unfold read_dir_info. rewrite V, B, N. change (record_size 63002) with 60. change (to_u64 100) with 100.
  rewrite (to_u64_small (nbname path)) by lia.
  unfold u64_add at 1. destruct (Z.ltb_spec (nbname path + 60) (2 ^ 64)); [|lia]. cbn [rbind].
  unfold u64_add at 1. destruct (Z.ltb_spec (nbname path + 60 + 100) (2 ^ 64)); [|lia]. cbn [rbind].
  rewrite to_u64_small by lia. destruct (Z.ltb_spec (fh_end h) (nbname path + 60 + 100)); [lia|].
  rewrite (read_at_ok _ _ _ _ S); [|rewrite !zlen_app, LN, LD, LP; lia|exact HD]. cbn [rbind].
  rewrite zsub_tail by exact LN. rewrite (reads_rrun _ _ _ _ _ RD). cbn [rbind].
  destruct (tkey_ok path P) as [K L]. destruct (khdr_split _ K eq_refl) as (x & Lx & EX).
  unfold name_rec. rewrite EX. rewrite <- !app_assoc.
  rewrite zsub_tail by apply zlen_be.
  rewrite (reads_rrun read_i16 (be 2 4) 4); [|intros sk; apply (reads_sint 2); [lia|red; cbn; lia]]. cbn [rbind].
  change (1000 <? 4) with false. cbv iota zeta. change (4 + 2 + 8 + 4 + 8) with 26.
  match goal with |- context [zlen ?l <? 26] => set (data := l) end.
  assert (LL : 26 <= zlen data).
  { unfold data. rewrite !zlen_app, !zlen_be, Lx. pose proof (zlen_nonneg (str_bytes (k_class (tkey path)))).
    pose proof (zlen_nonneg (str_bytes (k_name (tkey path)))). pose proof (zlen_nonneg (str_bytes (k_title (tkey path)))).
    pose proof (zlen_nonneg (str_bytes path)). pose proof (zlen_nonneg (str_bytes [])). lia. }
  destruct (Z.ltb_spec (zlen data) 26); [lia|].
  replace data with ((be 4 (k_nbytes (tkey path)) ++ be 2 4 ++ x) ++
     (str_bytes (bs "TFile") ++ str_bytes path ++ str_bytes []) ++ str_bytes path ++ str_bytes [] ++ dirb d ++ pad)
    by (unfold data; rewrite <- !app_assoc; reflexivity).
  rewrite zsub_tail by (rewrite !zlen_app, !zlen_be, Lx; reflexivity).
  rewrite (reads_rrun _ (str_bytes (bs "TFile") ++ str_bytes path ++ str_bytes []) (bs "TFile", path, [])).
  2: { intros sk. destruct P as [P _].
       eapply reads_bind; [apply reads_str; str_lit|].
       eapply reads_bind; [now apply reads_str|].
       rewrite <- (app_nil_r (str_bytes [])).
       eapply reads_bind; [apply reads_str; exact str_ok_nil|apply reads_ret]. }
  cbn [rbind]. change (d_nbname (dir_seen d)) with (d_nbname d). rewrite DN.
  replace ((nbname path <? 10) || (1000 <? nbname path)) with false.
  - reflexivity.
  - symmetry. assert (10 <= nbname path) by lia. lia.
Qed.

(** ** The list of keys *)
Lemma repeatM_reads {T V} (rf : R V) (w : T -> bytes) (v : T -> V) (l : list T) sk :
  (forall t, In t l -> reads_sk sk rf (w t) (v t)) ->
  reads_sk sk (repeatM (length l) rf) (concat (map w l)) (map v l).
Proof.
  induction l as [|t l IH]; intros H; cbn [length repeatM map concat].
  - apply reads_ret.
  - eapply reads_bind; [apply H; now left|]. rewrite <- (app_nil_r (concat _)).
    eapply reads_bind; [apply IH; intros; apply H; now right|apply reads_ret].
Qed.

Lemma u64_add_small a b : 0 <= a -> 0 <= b -> a + b < 2 ^ 63 -> u64_add (to_u64 a) (to_u64 b) = Ok (a + b).
Proof.
  intros. unfold u64_add. rewrite !to_u64_small by lia. destruct (Z.ltb_spec (a + b) (2 ^ 64)); [reflexivity|lia].
Qed.

Definition key_listed (k : key) : key := fix_class (key_seen k).

Lemma key_good_hdr k : key_good k -> zlen (khdr k) = k_keylen k /\ reads key_unmarshal (khdr k) (key_seen k).
Proof. intros (K & _ & L). destruct (khdr_ok k K) as (-> & _ & _ & R). auto. Qed.

Lemma mk_key_good' name title class cycle e buf :
  names_ok name title class -> beqb class (bs "TBasket") = false -> 100 <= e ->
  e + k_nbytes (mk_key name title class cycle e buf) <= kStartBigFile -> is_i16 cycle ->
  key_good (mk_key name title class cycle e buf).
Proof.
  intros N B H1 H2 H3. split; [now apply mk_key_good|]. split; [reflexivity|].
  unfold mk_key. cbv zeta. cbn [k_keylen]. now apply key_len_hdr.
Qed.
Lemma kkey_good path keys e : path_ok path -> 100 <= e -> e + k_nbytes (kkey path keys e) <= kStartBigFile ->
  key_good (kkey path keys e).
Proof. intros P H1 H2. apply mk_key_good'; [now apply names_ok_dir|reflexivity|lia|exact H2|red; lia]. Qed.
Lemma skey_good sbuf e : 100 <= e -> e + k_nbytes (skey sbuf e) <= kStartBigFile -> key_good (skey sbuf e).
Proof. intros H1 H2. apply mk_key_good'; [exact names_ok_si|reflexivity|lia|exact H2|red; lia]. Qed.
Lemma fkey_good path e : path_ok path -> 100 <= e -> e + k_nbytes (fkey path e) <= kStartBigFile -> key_good (fkey path e).
Proof. intros P H1 H2. apply mk_key_good'; [now apply names_ok_file|reflexivity|lia|exact H2|red; lia]. Qed.

Definition rec (k : key) : bytes := khdr k ++ k_buffer k.
Lemma rec_len k : key_good k -> k_nbytes k = k_keylen k + zlen (k_buffer k) -> zlen (rec k) = k_nbytes k.
Proof. intros G E. unfold rec. rewrite zlen_app, (proj1 (key_good_hdr k G)). lia. Qed.

Lemma read_keys_ok D d path keys e :
  path_ok path -> Forall key_good keys -> zlen keys < 2 ^ 31 -> 100 <= e ->
  e + k_nbytes (kkey path keys e) <= kStartBigFile ->
  d_seekkeys d = e -> d_nbkeys d = k_nbytes (kkey path keys e) ->
  seg D e (rec (kkey path keys e)) -> zlen D < 2 ^ 63 ->
  read_keys D d = Ok (map key_listed keys).
Proof.
  intros P G Hn He Hb E1 E2 S HD. set (kk := kkey path keys e) in *.
  assert (KG : key_good kk) by (apply kkey_good; [exact P|lia|exact Hb]).
  destruct (key_good_hdr kk KG) as (LH & RH).
  unfold read_keys. rewrite E1, E2. destruct (Z.leb_spec e 0); [lia|].
  rewrite (read_at_ok _ _ _ _ S); [|apply rec_len; [exact KG|reflexivity]|exact HD]. cbn [rbind].
  unfold rec. rewrite (reads_rrun _ _ _ _ _ RH). cbn [rbind].
  change (k_keylen (key_seen kk)) with (k_keylen kk). change (k_objlen (key_seen kk)) with (zlen (keys_buf keys)).
  pose proof (seg_bound _ _ _ S) as SB. unfold rec in SB. rewrite zlen_app in SB.
  pose proof (zlen_nonneg (khdr kk)). pose proof (zlen_nonneg (k_buffer kk)).
  rewrite u64_add_small by lia. cbn [rbind].
  pose proof (seg_app_r _ _ _ _ S) as S2. rewrite LH in S2. change (k_buffer kk) with (keys_buf keys) in S2.
  rewrite (read_at_ok _ _ _ _ S2 eq_refl HD). cbn [rbind].
  apply reads_rrun0. intros sk. unfold keys_buf.
  pose proof (zlen_nonneg keys).
  eapply reads_bind; [apply (reads_sint 4); [lia|red; lia]|].
  replace (Z.to_nat (zlen keys)) with (length keys) by (rewrite zlen_def, Nat2Z.id; reflexivity).
  rewrite <- (app_nil_r (concat _)).
  eapply reads_bind.
  - apply (repeatM_reads key_unmarshal khdr key_seen). intros k Hk.
    rewrite Forall_forall in G. apply (proj2 (key_good_hdr k (G k Hk))).
  - replace (map key_listed keys) with (map fix_class (map key_seen keys)) by now rewrite map_map.
    apply reads_ret.
Qed.

(** ** Payload of a record *)
Lemma key_bytes_ok D k : key_good k -> k_objlen k = zlen (k_buffer k) -> k_nbytes k = k_keylen k + zlen (k_buffer k) ->
  0 <= k_seek k -> seg D (k_seek k) (rec k) -> zlen D < 2 ^ 63 -> key_bytes D (key_seen k) = Ok (k_buffer k).
Proof.
  intros G E1 E2 E3 S HD. destruct (key_good_hdr k G) as (LH & _). unfold key_bytes.
  change (k_objlen (key_seen k)) with (k_objlen k). change (k_nbytes (key_seen k)) with (k_nbytes k).
  change (k_keylen (key_seen k)) with (k_keylen k). change (k_seek (key_seen k)) with (k_seek k).
  destruct (Z.eqb_spec (k_objlen k) (k_nbytes k - k_keylen k)); [|lia].
  pose proof (seg_bound _ _ _ S) as SB. unfold rec in SB. rewrite zlen_app in SB.
  pose proof (zlen_nonneg (khdr k)). pose proof (zlen_nonneg (k_buffer k)).
  rewrite u64_add_small by lia. cbn [rbind].
  pose proof (seg_app_r _ _ _ _ S) as S2. rewrite LH in S2.
  now apply read_at_ok.
Qed.

Lemma read_sinfos_ok D h sis sbuf e :
  100 <= e -> e + k_nbytes (skey sbuf e) <= kStartBigFile -> e < fh_end h ->
  Forall sinfo_ok sis -> zlen sis < 2 ^ 31 -> wrun si_keylen (sinfos_marshal sis) = Ok sbuf -> 3 <= zlen sbuf ->
  fh_seekinfo h = e -> fh_nbinfo h = k_nbytes (skey sbuf e) ->
  seg D e (rec (skey sbuf e)) -> zlen D < 2 ^ 63 ->
  read_sinfos D h = Ok (map sinfo_seen (rev sis)).
Proof.
  intros He Hb Hend SO SL SW S3 E1 E2 SG HD. set (ks := skey sbuf e) in *.
  assert (KG : key_good ks) by (apply skey_good; [lia|exact Hb]).
  destruct (key_good_hdr ks KG) as (LH & RH).
  unfold read_sinfos. rewrite E1, E2. replace ((e <=? 0) || (fh_end h <=? e)) with false by (symmetry; lia).
  rewrite (read_at_ok _ _ _ _ SG); [|apply rec_len; [exact KG|reflexivity]|exact HD]. cbn [rbind].
  unfold rec. rewrite (reads_rrun _ _ _ _ _ RH). cbn [rbind].
  unfold key_object. rewrite key_bytes_ok; [|exact KG|reflexivity|reflexivity|cbn; lia|exact SG|exact HD]. cbn [rbind].
  change (k_class (key_seen ks)) with (bs "TList"). change (negb (known (bs "TList"))) with false. cbv iota.
  change (k_buffer ks) with sbuf. change (k_keylen (key_seen ks)) with si_keylen.
  assert (exists n, S (length sbuf) = S (S (S (S n)))) as (n & ->).
  { rewrite zlen_def in S3. destruct (length sbuf) as [|[|[|n]]] eqn:E; try lia. now exists n. }
  pose proof (key_len_pos _ _ _ names_ok_si) as Ls. fold si_keylen in Ls.
  assert (Ns : k_nbytes ks = si_keylen + zlen sbuf) by reflexivity. unfold kStartBigFile in Hb.
  rewrite (sim0_rrun _ _ _ _ _ _ (sinfos_sim n sis SO SL) SW) by lia. cbn [rbind].
  rewrite <- map_rev. induction (rev sis) as [|s l IH]; [reflexivity|].
  cbn [map pick_sinfos]. rewrite IH. reflexivity.
Qed.

Lemma r_is_empty_end b off sk : r_is_empty (mkR b (zlen b) off [] sk) = true.
Proof. unfold r_is_empty, r_len. cbn [rp rc]. lia. Qed.

Lemma read_free_ok D h path e :
  path_ok path -> 100 <= e -> e + k_nbytes (fkey path e) <= kStartBigFile ->
  fh_seekfree h = e -> fh_nbfree h = k_nbytes (fkey path e) ->
  seg D e (rec (fkey path e)) -> zlen D < 2 ^ 63 ->
  read_free_segments D h = Ok [mkSeg (e + k_nbytes (fkey path e)) kStartBigFile].
Proof.
  intros P He Hb E1 E2 SG HD.
  assert (Nf : k_nbytes (fkey path e) = path_keylen path + zlen (seg_buf (e + (path_keylen path + 10)))) by reflexivity.
  pose proof (zlen_nonneg (seg_buf (e + (path_keylen path + 10)))) as Zf.
  pose proof (key_len_pos _ _ _ (names_ok_file path P)) as Lf. fold (path_keylen path) in Lf.
  assert (B3 : is_i32 (e + (path_keylen path + 10))).
  { destruct P as [_ P2]. unfold kStartBigFile in Hb. red. lia. }
  destruct (zlen_seg_buf _ B3) as (ZF & WF & RF). rewrite ZF in Nf. rewrite Nf in Hb |- *.
  set (kf := fkey path e) in *.
  assert (KG : key_good kf) by (apply fkey_good; [exact P|lia|fold kf; lia]).
  destruct (key_good_hdr kf KG) as (LH & RH).
  unfold read_free_segments. rewrite E1, E2.
  rewrite (read_at_ok _ _ _ _ SG); [|apply rec_len; [exact KG|reflexivity]|exact HD]. cbn [rbind].
  unfold rec. rewrite (reads_rrun _ _ _ _ _ RH). cbn [rbind].
  rewrite key_bytes_ok; [|exact KG|reflexivity|reflexivity|cbn; lia|exact SG|exact HD]. cbn [rbind].
  change (k_buffer kf) with (seg_buf (e + (path_keylen path + 10))).
  set (b := seg_buf _) in *.
  assert (exists n, S (length b) = S (S n)) as (n & ->).
  { rewrite zlen_def in ZF. destruct (length b) as [|n] eqn:E; [lia|]. now exists n. }
  unfold rrun, r_new. cbn [read_spans]. unfold bind, gets, ret.
  assert (r_is_empty (mkR b 0 0 [] None) = false) as -> by (unfold r_is_empty, r_len; cbn [rp rc]; lia).
  specialize (RF None [] [] 0 []). cbn [app] in RF. rewrite app_nil_r, (@zlen_nil Z) in RF. cbn [Z.add] in RF.
  rewrite RF. rewrite r_is_empty_end. reflexivity.
Qed.

(** ** Opening *)
(** What the disk must hold for [open] to succeed. *)
Record openable (path : bytes) (D : bytes) (h : fhdr) (d : dirf) (keys : list key)
    (spans : list fseg) (sis : list sinfo) : Prop := {
  op_path : path_ok path; op_nb : nbname path <= 1000;
  op_size : 76 <= zlen D < 2 ^ 63;
  op_hdr : fhdr_ok h; op_hseg : seg D 0 (hdrb h);
  op_v : fh_version h = 63002; op_b : fh_begin h = 100; op_n : fh_nbname h = nbname path;
  op_end : E0 path <= fh_end h < 2 ^ 63;
  op_dir : dir_ok d; op_dbig : dir_big d = false; op_dn : d_nbname d = nbname path;
  op_dseg : exists pad, zlen pad = 12 /\ seg D 100 (name_rec path ++ dirb d ++ pad);
  op_keys : Forall key_good keys; op_klen : zlen keys < 2 ^ 31;
  op_sk : 100 <= d_seekkeys d; op_sk2 : d_seekkeys d + k_nbytes (kkey path keys (d_seekkeys d)) <= kStartBigFile;
  op_nk : d_nbkeys d = k_nbytes (kkey path keys (d_seekkeys d));
  op_kseg : seg D (d_seekkeys d) (rec (kkey path keys (d_seekkeys d)));
  op_free : (if 0 <? fh_seekfree h then read_free_segments D h else Ok []) = Ok spans;
  op_sis : (if 0 <? fh_seekinfo h then read_sinfos D h else Ok []) = Ok sis }.

Lemma hdrb_short h : fhdr_ok h -> zlen (hdrb h) <= 75.
Proof. intros H. destruct (hdrb_ok h H) as (-> & _). unfold fhdr_len. destruct (fhdr_big h); lia. Qed.

Lemma open_ok path D h d keys spans sis : openable path D h d keys spans sis ->
  open_file D = Ok (mkFile (IORead D) h (d_set_keys (dir_open path d) (map key_listed keys)) spans sis []).
Proof.
  intros [P PN SZ HO HS V B N HE DO DB DN (pad & LP & DS) KG KL SK SK2 NK KS HF HI].
  destruct (hdrb_ok h HO) as (_ & _ & RH). pose proof (hdrb_short h HO) as HL.
  unfold open_file.
  destruct HS as (a & c & ED & LA). apply zlen_0_nil in LA. subst a. cbn [app] in ED.
  assert (exists x y, c = x ++ y /\ zlen (hdrb h ++ x) = 76) as (x & y & Ec & LX).
  { rewrite ED, zlen_app in SZ. destruct (zsub_split c 0 (76 - zlen (hdrb h))) as (a' & b' & E & LA'); [lia|lia|lia|].
    apply zlen_0_nil in LA'. subst a'. cbn [app] in E. eexists _, b'. split; [exact E|].
    rewrite zlen_app, zsub_length by lia. lia. }
  rewrite (read_at_ok D 0 76 (hdrb h ++ x)); [|exists [], y; split; [rewrite ED, Ec; now rewrite <- app_assoc|reflexivity]|exact LX|lia].
  cbn [rbind]. rewrite (reads_rrun _ _ _ _ _ RH). cbn [rbind].
  rewrite (read_dir_ok D h d path pad) by (assumption || lia). cbn [rbind].
  rewrite HF. cbn [rbind]. rewrite HI. cbn [rbind].
  rewrite (read_keys_ok D (dir_open path d) path keys (d_seekkeys d)) by (assumption || lia || reflexivity).
  reflexivity.
Qed.
