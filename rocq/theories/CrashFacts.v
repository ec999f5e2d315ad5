(** Disks whose last write was cut short. *)
From Verif Require Import Base Bytes Utf8 RBuf WBuf Codec Values Key Header Obj Streamer RObj TreeObj File FileLay FileOps FileMono
  FileClose FileOpen FileFinal Names Column ColRead ColOps TreeOps ColBack ColType TreeFinal TreeWrite TreeSession StreamerDb
  Spec CodecFacts SpecTree SessFacts FileFacts SpecCrash.

(** ** Half of one list and half of another *)
Definition mix (n : nat) (new old : bytes) : bytes := firstn n new ++ skipn n old.

Lemma mix_app n a b c d : length a = length c -> mix n (a ++ b) (c ++ d) = mix n a c ++ mix (n - length a) b d.
Proof.
  intros E. unfold mix. rewrite firstn_app, skipn_app, <- E, <- !app_assoc. f_equal.
  destruct (le_lt_dec n (length a)) as [H|H].
  - replace (n - length a)%nat with 0%nat by lia. reflexivity.
  - rewrite (skipn_all2 c) by lia. reflexivity.
Qed.
Lemma mix_same n a : mix n a a = a.
Proof. apply firstn_skipn. Qed.
Lemma mix_all n a b : (length a <= n)%nat -> (length b <= n)%nat -> mix n a b = a.
Proof. intros H1 H2. unfold mix. rewrite firstn_all2, skipn_all2, app_nil_r by assumption. reflexivity. Qed.
Lemma mix_0 a b : mix 0 a b = b. Proof. reflexivity. Qed.
Lemma mix_length n a b : length a = length b -> length (mix n a b) = length b.
Proof. intros E. unfold mix. rewrite app_length, firstn_length, skipn_length. lia. Qed.
Lemma mix_zlen n a b : zlen a = zlen b -> zlen (mix n a b) = zlen b.
Proof. rewrite !zlen_def. intros E. rewrite mix_length; lia. Qed.
Lemma mix_bytes n a b : bytes_ok a -> bytes_ok b -> bytes_ok (mix n a b).
Proof.
  intros A B. unfold mix. rewrite <- (firstn_skipn n a) in A. rewrite <- (firstn_skipn n b) in B.
  apply Forall_app in A, B. apply Forall_app. split; [apply A|apply B].
Qed.

Lemma torn_dwrite pre old post new n p : zlen pre = p -> zlen old = zlen new ->
  dwrite (pre ++ old ++ post) p (firstn n new) = pre ++ mix n new old ++ post.
Proof.
  intros Hp E. rewrite !zlen_def in E. unfold mix.
  rewrite <- (firstn_skipn n old) at 1. rewrite <- !app_assoc.
  apply dwrite_mid; [exact Hp|]. rewrite !zlen_def, !firstn_length. lia.
Qed.

Lemma zeros_app a b : zeros (a ++ b) <-> zeros a /\ zeros b. Proof. apply Forall_app. Qed.
Lemma zeros_dec b : zeros b \/ ~ zeros b.
Proof. destruct (Forall_dec (fun x => x = 0) (fun x => Z.eq_dec x 0) b); auto. Qed.
Lemma zeros_repeat n : zeros (repeat 0 n).
Proof. induction n; constructor; auto. Qed.
Lemma zeros_eq b : zeros b -> b = repeat 0 (length b).
Proof. induction 1 as [|x l -> _ IH]; [reflexivity|]. cbn [length repeat]. now rewrite <- IH. Qed.

Lemma de_zeros l : bytes_ok l -> (de l = 0 <-> zeros l).
Proof.
  induction 1 as [|x l Hx Hl IH]; [split; [constructor|reflexivity]|].
  pose proof (de_bound l Hl) as B. pose proof (pow256_pos (length l)) as Q. rewrite <- zlen_def in Q. rewrite de_cons. unfold byte_ok in Hx. split.
  - intros E. assert (x = 0) by nia. subst x. constructor; [reflexivity|]. apply IH. lia.
  - inversion 1; subst. rewrite (proj2 IH) by assumption. lia.
Qed.

(** A number of which the first [k] bytes of four are on disk. *)
Definition z4 : bytes := repeat 0 4.
Definition t4 (k : nat) (v : Z) : Z := sgn 4 (de (mix k (be 4 v) z4)).

Lemma de_mix4 k v : 0 <= v < 2 ^ 31 ->
  exists m, 0 < m /\ ((k <= 3)%nat -> 256 <= m) /\ de (mix k (be 4 v) z4) = v - v mod m.
Proof.
  intros H. destruct k as [|[|[|[|k]]]].
  - exists (2 ^ 32). split; [lia|]. split; [lia|]. rewrite Z.mod_small by lia. rewrite mix_0. change (de z4) with 0. lia.
  - exists 16777216. split; [lia|]. split; [lia|]. unfold mix, z4. cbn [be firstn repeat skipn app de fold_left Z.of_nat Pos.of_succ_nat Pos.succ].
    change (256 ^ 3) with 16777216. lia.
  - exists 65536. split; [lia|]. split; [lia|]. unfold mix, z4. cbn [be firstn repeat skipn app de fold_left Z.of_nat Pos.of_succ_nat Pos.succ].
    change (256 ^ 3) with 16777216. change (256 ^ 2) with 65536. lia.
  - exists 256. split; [lia|]. split; [lia|]. unfold mix, z4. cbn [be firstn repeat skipn app de fold_left Z.of_nat Pos.of_succ_nat Pos.succ].
    change (256 ^ 3) with 16777216. change (256 ^ 2) with 65536. change (256 ^ 1) with 256. lia.
  - exists 1. split; [lia|]. split; [lia|]. rewrite mix_all by (rewrite ?be_length; cbn; lia). rewrite de_be_u by (red; cbn; lia).
    rewrite Z.mod_1_r. lia.
Qed.

Lemma t4_sgn k v : 0 <= v < 2 ^ 31 -> t4 k v = de (mix k (be 4 v) z4).
Proof.
  intros H. destruct (de_mix4 k v H) as (m & M1 & M2 & E). unfold t4, sgn. rewrite E.
  change (256 ^ Z.of_nat 4 / 2) with (2 ^ 31). pose proof (Z.mod_pos_bound v m M1). destruct (Z.ltb_spec (v - v mod m) (2 ^ 31)); lia.
Qed.
Lemma t4_range k v : 0 <= v < 2 ^ 31 -> 0 <= t4 k v <= v.
Proof.
  intros H. rewrite t4_sgn by exact H. destruct (de_mix4 k v H) as (m & M1 & M2 & E). rewrite E.
  pose proof (Z.mod_pos_bound v m M1). assert (v mod m <= v) by (apply Z.mod_le; lia). revert H0 H1. generalize (v mod m). lia.
Qed.
Lemma t4_big k v : 0 <= v < 2 ^ 31 -> t4 k v <> 0 -> (k <= 3)%nat -> 256 <= t4 k v.
Proof.
  intros H N K. rewrite t4_sgn in * by exact H. destruct (de_mix4 k v H) as (m & M1 & M2 & E). rewrite E in *. specialize (M2 K).
  assert (v = m * (v / m) + v mod m) by (apply Z.div_mod; lia). assert (0 <= v / m) by (apply Z.div_pos; lia).
  revert N H0 H1. generalize (v mod m) (v / m). intros r q N E' Q. assert (q <> 0) by (intros ->; lia). nia.
Qed.
Lemma t4_full k v : is_i32 v -> (4 <= k)%nat -> t4 k v = v.
Proof.
  intros H K. unfold t4. rewrite mix_all by (rewrite ?be_length; cbn; lia).
  unfold sgn. rewrite de_be. red in H. unfold sgn. change (256 ^ Z.of_nat 4) with (2 ^ 32). change (2 ^ 32 / 2) with (2 ^ 31).
  destruct (Z.ltb_spec (v mod 2 ^ 32) (2 ^ 31)); lia.
Qed.
Lemma t4_0 v : t4 0 v = 0. Proof. reflexivity. Qed.
Lemma t4_zero k v : 0 <= v < 2 ^ 31 -> (t4 k v = 0 <-> zeros (firstn k (be 4 v))).
Proof.
  intros H. rewrite t4_sgn by exact H. rewrite de_zeros by (apply mix_bytes; [apply be_bytes_ok|repeat constructor; lia]).
  unfold mix. rewrite zeros_app. split; [intros [E _]; exact E|]. intros E. split; [exact E|].
  assert (zeros z4) as Z0 by apply (zeros_repeat 4). rewrite <- (firstn_skipn k z4) in Z0. apply zeros_app in Z0. apply Z0.
Qed.

(** ** Reading bytes that are not quite a header *)
Lemma reads_sint_any n w sk : zlen w = Z.of_nat n -> reads_sk sk (read_sint n) w (sgn n (de w)).
Proof.
  intros H. unfold read_sint. rewrite <- (app_nil_r w) at 1.
  eapply reads_bind; [apply reads_extract_n, H|apply reads_ret].
Qed.
Lemma reads_uint_any n w sk : zlen w = Z.of_nat n -> reads_sk sk (read_uint n) w (de w).
Proof.
  intros H. unfold read_uint. rewrite <- (app_nil_r w) at 1.
  eapply reads_bind; [apply reads_extract_n, H|apply reads_ret].
Qed.
Notation i4 w := (sgn 4 (de w)).

Lemma fhdr_any v b e sf nf nr nn u c si ni m uu :
  zlen v = 4 -> zlen b = 4 -> zlen e = 4 -> zlen sf = 4 -> zlen nf = 4 -> zlen nr = 4 -> zlen nn = 4 -> zlen u = 1 ->
  zlen c = 4 -> zlen si = 4 -> zlen ni = 4 -> zlen m = 2 -> zlen uu = 16 -> i4 v <= 1000000 ->
  reads fhdr_unmarshal (bs "root" ++ v ++ b ++ e ++ sf ++ nf ++ nr ++ nn ++ u ++ c ++ si ++ ni ++ m ++ uu)
    (mkHdr (Z.rem (i4 v) 1000000) (i4 b) (i4 e) (i4 sf) (i4 nf) (i4 nr) (i4 nn) (de u) (i4 c) (i4 si) (i4 ni) uu).
Proof.
  intros Lv Lb Le Lsf Lnf Lnr Lnn Lu Lc Lsi Lni Lm Luu V sk. unfold fhdr_unmarshal.
  eapply reads_bind; [now apply reads_extract_n|]. change (negb (beqb (bs "root") root_magic)) with false. cbv iota.
  eapply reads_bind; [now apply (reads_sint_any 4)|].
  destruct (Z.ltb_spec 1000000 (i4 v)); [lia|].
  do 6 (eapply reads_bind; [now apply (reads_sint_any 4)|]).
  eapply reads_bind; [now apply (reads_uint_any 1)|].
  do 3 (eapply reads_bind; [now apply (reads_sint_any 4)|]).
  eapply reads_bind; [now apply (reads_uint_any 2)|].
  rewrite <- (app_nil_r uu) at 1. eapply reads_bind; [now apply reads_extract_n|apply reads_ret].
Qed.

Lemma dir_any rv ct mt nk nn sd sp sk mm uu :
  zlen rv = 2 -> zlen ct = 4 -> zlen mt = 4 -> zlen nk = 4 -> zlen nn = 4 -> zlen sd = 4 -> zlen sp = 4 -> zlen sk = 4 ->
  zlen mm = 2 -> zlen uu = 16 -> sgn 2 (de rv) <= 1000 ->
  reads dir_unmarshal (rv ++ ct ++ mt ++ nk ++ nn ++ sd ++ sp ++ sk ++ mm ++ uu)
    (mkDir (sgn 2 (de rv)) (de ct) (de mt) (i4 nk) (i4 nn) (i4 sd) (i4 sp) (i4 sk) uu [] [] [] []).
Proof.
  intros Lrv Lct Lmt Lnk Lnn Lsd Lsp Lsk Lmm Luu V k. unfold dir_unmarshal.
  eapply reads_bind; [now apply (reads_sint_any 2)|].
  destruct (Z.ltb_spec 1000 (sgn 2 (de rv))); [lia|].
  do 2 (eapply reads_bind; [now apply (reads_uint_any 4)|]).
  do 5 (eapply reads_bind; [now apply (reads_sint_any 4)|]).
  eapply reads_bind; [now apply (reads_uint_any 2)|].
  rewrite <- (app_nil_r uu) at 1. eapply reads_bind; [now apply reads_extract_n|apply reads_ret].
Qed.

(** The records the writer produces, piece by piece. *)
Lemma hdrb_split h : fhdr_ok h -> fhdr_big h = false ->
  hdrb h = bs "root" ++ be 4 (fh_version h) ++ be 4 (to_i32 (fh_begin h)) ++ be 4 (to_i32 (fh_end h)) ++ be 4 (to_i32 (fh_seekfree h)) ++
    be 4 (fh_nbfree h) ++ be 4 (fh_nfree h) ++ be 4 (fh_nbname h) ++ be 1 (fh_units h) ++ be 4 (fh_comp h) ++
    be 4 (to_i32 (fh_seekinfo h)) ++ be 4 (fh_nbinfo h) ++ be 2 1 ++ fh_uuid h.
Proof.
  intros (Hv & _) B. unfold hdrb. apply writes_wbytes. unfold fhdr_marshal. rewrite B. cbn [andb]. cbv zeta.
  destruct (Z.ltb_spec (fh_version h) 1000000); [|lia].
  eapply writes_bind; [apply writes_put|intros _].
  do 2 (eapply writes_bind; [apply (writes_int 4)|intros _]).
  match goal with |- writes _ ?l => replace l with ((be 4 (to_i32 (fh_end h)) ++ be 4 (to_i32 (fh_seekfree h)) ++
    be 4 (fh_nbfree h) ++ be 4 (fh_nfree h) ++ be 4 (fh_nbname h) ++ be 1 (fh_units h) ++ be 4 (fh_comp h) ++
    be 4 (to_i32 (fh_seekinfo h)) ++ be 4 (fh_nbinfo h)) ++ be 2 1 ++ fh_uuid h) by now rewrite <- !app_assoc end.
  eapply writes_bind; [|intros _; eapply writes_bind; [apply (writes_int 2)|intros _; apply writes_put]].
  do 5 (eapply writes_bind; [apply (writes_int 4)|intros _]).
  eapply writes_bind; [apply (writes_int 1)|intros _].
  do 2 (eapply writes_bind; [apply (writes_int 4)|intros _]). apply (writes_int 4).
Qed.

Lemma dirb_split d : dir_ok d -> dir_big d = false -> exists ct mt, zlen ct = 4 /\ zlen mt = 4 /\
  writes (write_date (d_ctime d)) ct /\ writes (write_date (d_mtime d)) mt /\
  dirb d = be 2 (d_rvers d) ++ ct ++ mt ++ be 4 (d_nbkeys d) ++ be 4 (d_nbname d) ++ be 4 (to_i32 (d_seekdir d)) ++
    be 4 (to_i32 (d_seekparent d)) ++ be 4 (to_i32 (d_seekkeys d)) ++ be 2 1 ++ d_uuid d.
Proof.
  intros (_ & Hc & Hm & _) B. destruct (rt_date _ Hc) as (ct & L1 & W1 & _). destruct (rt_date _ Hm) as (mt & L2 & W2 & _).
  exists ct, mt. do 4 (split; [assumption|]). unfold dirb. apply writes_wbytes. unfold dir_marshal. rewrite B.
  eapply writes_bind; [apply (writes_int 2)|intros _].
  eapply writes_bind; [exact W1|intros _]. eapply writes_bind; [exact W2|intros _].
  do 2 (eapply writes_bind; [apply (writes_int 4)|intros _]).
  match goal with |- writes _ ?l => replace l with ((be 4 (to_i32 (d_seekdir d)) ++ be 4 (to_i32 (d_seekparent d)) ++ be 4 (to_i32 (d_seekkeys d))) ++
    be 2 1 ++ d_uuid d) by now rewrite <- !app_assoc end.
  eapply writes_bind; [|intros _; eapply writes_bind; [apply (writes_int 2)|intros _; apply writes_put]].
  do 2 (eapply writes_bind; [apply (writes_int 4)|intros _]). apply (writes_int 4).
Qed.

(** ** A directory saved in part *)
Lemma be_sgn4 l : bytes_ok l -> zlen l = 4 -> be 4 (i4 l) = l.
Proof.
  intros B L. assert (length l = 4%nat) as L' by (rewrite zlen_def in L; lia). rewrite <- (be_de l B) at 2. rewrite L'.
  rewrite <- (be_mod 4 (i4 l)), <- (be_mod 4 (de l)). f_equal. unfold sgn.
  pose proof (de_bound l B) as Hb. rewrite L in Hb. change (256 ^ Z.of_nat 4) with 4294967296. change (256 ^ 4) with 4294967296 in Hb.
  change (4294967296 / 2) with 2147483648. destruct (Z.ltb_spec (de l) 2147483648); lia.
Qed.
Lemma sgn4_range l : bytes_ok l -> zlen l = 4 -> is_i32 (i4 l).
Proof.
  intros B L. pose proof (de_bound l B) as Hb. rewrite L in Hb. change (256 ^ 4) with 4294967296 in Hb. unfold sgn.
  change (256 ^ Z.of_nat 4) with 4294967296. change (4294967296 / 2) with 2147483648. red. destruct (Z.ltb_spec (de l) 2147483648); lia.
Qed.

Definition dir_at path e nk := d_set_saved (d_set_keys (dir0 path) []) e nk.

Lemma dirb_keys path keys e nk : dirb (d_set_saved (d_set_keys (dir0 path) keys) e nk) = dirb (dir_at path e nk).
Proof. reflexivity. Qed.
Lemma dirb_0 path : dirb (dir0 path) = dirb (dir_at path 0 0).
Proof. reflexivity. Qed.

Lemma dir_at_split path : path_ok path -> exists A B C, zlen A = 10 /\ zlen B = 12 /\ zlen C = 18 /\
  forall e nk, is_i32 e -> is_i32 nk -> dirb (dir_at path e nk) = A ++ be 4 nk ++ B ++ be 4 e ++ C.
Proof.
  intros P. destruct (dirb_split (dir0 path)) as (ct & mt & L1 & L2 & W1 & W2 & _); [|reflexivity|].
  { apply (dir0_ok path [] 0 0 P); red; lia. }
  exists (be 2 5 ++ ct ++ mt), (be 4 (nbname path) ++ be 4 (to_i32 100) ++ be 4 (to_i32 0)), (be 2 1 ++ repeat 0 16).
  split; [rewrite !zlen_app, zlen_be, L1, L2; reflexivity|]. split; [rewrite !zlen_app, !zlen_be; reflexivity|]. split; [reflexivity|].
  intros e nk He Hk. destruct (dirb_split (dir_at path e nk)) as (ct' & mt' & _ & _ & W1' & W2' & ->); [|reflexivity|].
  { now apply dir0_ok. }
  change (d_ctime (dir_at path e nk)) with (d_ctime (dir0 path)) in W1'. change (d_mtime (dir_at path e nk)) with (d_mtime (dir0 path)) in W2'.
  rewrite <- (writes_wbytes _ _ W1'), <- (writes_wbytes _ _ W2'), (writes_wbytes _ _ W1), (writes_wbytes _ _ W2).
  change (d_rvers (dir_at path e nk)) with 5. change (d_nbkeys (dir_at path e nk)) with nk. change (d_nbname (dir_at path e nk)) with (nbname path).
  change (d_seekdir (dir_at path e nk)) with 100. change (d_seekparent (dir_at path e nk)) with 0. change (d_seekkeys (dir_at path e nk)) with e.
  change (d_uuid (dir_at path e nk)) with (repeat 0 16). rewrite (to_i32_id e) by exact He. rewrite <- !app_assoc. reflexivity.
Qed.

Lemma field_at p n a b c : zlen a = Z.of_nat p -> zlen b = Z.of_nat n -> field p n (a ++ b ++ c) = b.
Proof.
  rewrite !zlen_def. intros Ha Hb. unfold field. rewrite skipn_app, skipn_all2 by lia. cbn [app].
  replace (p - length a)%nat with 0%nat by lia. rewrite skipn_O, firstn_app, firstn_all2 by lia.
  replace (n - length b)%nat with 0%nat by lia. cbn [firstn]. apply app_nil_r.
Qed.

Lemma dir_torn path e nk n : path_ok path -> is_i32 e -> is_i32 nk ->
  field 26 4 (dirb (dir_at path e nk)) = be 4 e /\
  (zeros (firstn (n - 26) (be 4 e)) -> exists nk', is_i32 nk' /\ mix n (dirb (dir_at path e nk)) (dirb (dir_at path 0 0)) = dirb (dir_at path 0 nk')) /\
  (0 < e -> zeros (skipn (n - 26) (be 4 e)) -> mix n (dirb (dir_at path e nk)) (dirb (dir_at path 0 0)) = dirb (dir_at path e nk)).
Proof.
  intros P He Hk. destruct (dir_at_split path P) as (A & B & C & LA & LB & LC & E).
  rewrite (E e nk He Hk), (E 0 0) by (red; lia).
  assert (length A = 10%nat /\ length B = 12%nat /\ length C = 18%nat) as (LA' & LB' & LC') by (rewrite !zlen_def in *; lia).
  assert (mix n (A ++ be 4 nk ++ B ++ be 4 e ++ C) (A ++ be 4 0 ++ B ++ be 4 0 ++ C) =
    A ++ mix (n - 10) (be 4 nk) z4 ++ B ++ mix (n - 26) (be 4 e) z4 ++ C) as EM.
  { rewrite mix_app by reflexivity. rewrite mix_app by (now rewrite !be_length). rewrite mix_app by reflexivity.
    rewrite mix_app by (now rewrite !be_length). rewrite !mix_same, !be_length, LA', LB'.
    replace (n - 10 - 4 - 12)%nat with (n - 26)%nat by lia. reflexivity. }
  split; [|split].
  - replace (A ++ be 4 nk ++ B ++ be 4 e ++ C) with ((A ++ be 4 nk ++ B) ++ be 4 e ++ C) by now rewrite <- !app_assoc.
    apply field_at; [rewrite !zlen_app, LA, LB, zlen_be; reflexivity|apply zlen_be].
  - intros Z0. rewrite EM.
    assert (mix (n - 26) (be 4 e) z4 = be 4 0) as ->.
    { change (be 4 0) with z4. rewrite (zeros_eq (mix _ _ _)).
      - rewrite mix_length by (rewrite be_length; reflexivity). reflexivity.
      - unfold mix. apply zeros_app. split; [exact Z0|].
        assert (zeros z4) as Z1 by apply (zeros_repeat 4). rewrite <- (firstn_skipn (n - 26) z4) in Z1. apply zeros_app in Z1. apply Z1. }
    assert (bytes_ok (mix (n - 10) (be 4 nk) z4)) as BM by (apply mix_bytes; [apply be_bytes_ok|repeat constructor; lia]).
    assert (zlen (mix (n - 10) (be 4 nk) z4) = 4) as LM by (rewrite mix_zlen; [reflexivity|rewrite zlen_be; reflexivity]).
    exists (i4 (mix (n - 10) (be 4 nk) z4)). split; [now apply sgn4_range|].
    rewrite (E 0) by (try (now apply sgn4_range); red; lia). now rewrite be_sgn4.
  - intros Pe Z0. rewrite EM.
    assert (26 < n)%nat as N.
    { destruct (le_lt_dec n 26) as [H|H]; [|exact H]. replace (n - 26)%nat with 0%nat in Z0 by lia. rewrite skipn_O in Z0.
      apply de_zeros in Z0; [|apply be_bytes_ok]. rewrite de_be in Z0. change (256 ^ Z.of_nat 4) with 4294967296 in Z0. red in He. lia. }
    rewrite (mix_all (n - 10)) by (rewrite ?be_length; cbn; lia).
    assert (mix (n - 26) (be 4 e) z4 = be 4 e) as ->; [|reflexivity].
    unfold mix. rewrite <- (firstn_skipn (n - 26) (be 4 e)) at 2. f_equal.
    rewrite (zeros_eq _ Z0), skipn_length, be_length.
    rewrite (zeros_eq (skipn (n - 26) z4)); [rewrite skipn_length; reflexivity|].
    assert (zeros z4) as Z1 by apply (zeros_repeat 4). rewrite <- (firstn_skipn (n - 26) z4) in Z1. apply zeros_app in Z1. apply Z1.
Qed.

Lemma open_torn_dir path nk x : path_ok path -> is_i32 nk -> exists e, open_file (base path (hdr0 path) (dir_at path 0 nk) ++ x) = Err e.
Proof.
  intros P HK. destruct (hdr0_ok path P) as (HO & HB). pose proof (E0_pos path P) as HE0.
  set (d := dir_at path 0 nk).
  assert (DO : dir_ok d) by (apply (dir0_ok path [] 0 nk P); [red; lia|exact HK]).
  assert (DB : dir_big d = false) by reflexivity.
  pose proof (base_len path _ _ P HO HB DO DB) as LB.
  set (D := base path (hdr0 path) d ++ x).
  assert (S0 : seg D 0 (hdrb (hdr0 path))).
  { exists [], ((repeat 0 37 ++ name_rec path ++ dirb d) ++ x). split; [|reflexivity].
    unfold D, base. now rewrite <- !app_assoc. }
  assert (LD : zlen D = E0 path - 12 + zlen x) by (unfold D; rewrite zlen_app, LB; reflexivity).
  pose proof (zlen_nonneg x).
  destruct (Z.ltb_spec (zlen D) (E0 path)) as [Hs|Hs].
  { exists EIo. apply (open_short D path P S0). lia. }
  destruct (zsub_split x 0 12) as (a & c & E & LA); [lia|lia|lia|]. apply zlen_0_nil in LA. subst a. cbn [app] in E.
  assert (LP : zlen (zsub x 0 12) = 12) by (apply zsub_length; lia).
  assert (S1 : seg D 100 (name_rec path ++ dirb d ++ zsub x 0 12)).
  { exists (hdrb (hdr0 path) ++ repeat 0 37), c. split.
    - unfold D, base. rewrite E at 1. now rewrite <- !app_assoc.
    - rewrite zlen_app, zlen_repeat. destruct (hdrb_ok _ HO) as (-> & _). unfold fhdr_len. rewrite HB. reflexivity. }
  destruct (open_start D _ HO S0) as (b & E1 & E2); [lia|].
  unfold open_file. rewrite E1. cbn [rbind]. rewrite E2. cbn [rbind].
  rewrite (read_dir_gen D (hdr0 path) d path (zsub x 0 12)); try assumption; try reflexivity;
    [|cbn [hdr0 fh_end]; lia].
  destruct (1000 <? nbname path); [now eexists|]. cbn [rbind].
  change (0 <? fh_seekfree (hdr0 path)) with false. change (0 <? fh_seekinfo (hdr0 path)) with false. cbv iota. cbn [rbind].
  unfold read_keys. change (d_seekkeys (dir_open path d)) with 0. now eexists.
Qed.

(** ** A header written in part over a blank one *)
Definition hdr_torn (n : nat) (h : fhdr) : fhdr :=
  mkHdr (Z.rem (t4 (n - 4) (fh_version h)) 1000000) (t4 (n - 8) (fh_begin h)) (t4 (n - 12) (fh_end h)) (t4 (n - 16) (fh_seekfree h))
    (t4 (n - 20) (fh_nbfree h)) (t4 (n - 24) (fh_nfree h)) (t4 (n - 28) (fh_nbname h)) (de (mix (n - 32) (be 1 (fh_units h)) (repeat 0 1)))
    (t4 (n - 33) (fh_comp h)) (t4 (n - 37) (fh_seekinfo h)) (t4 (n - 41) (fh_nbinfo h)) (mix (n - 47) (fh_uuid h) (repeat 0 16)).

Lemma mix_app4 n v b d : mix n (be 4 v ++ b) (z4 ++ d) = mix n (be 4 v) z4 ++ mix (n - 4) b d.
Proof. rewrite mix_app by now rewrite be_length. now rewrite be_length. Qed.
Lemma mix4_len n v : zlen (mix n (be 4 v) z4) = 4.
Proof. rewrite mix_zlen; [reflexivity|]. now rewrite zlen_be. Qed.

Lemma t4_version k : t4 k 63002 <= 1000000.
Proof. pose proof (t4_range k 63002). lia. Qed.

Lemma hdr_torn_reads n h : fhdr_ok h -> fhdr_big h = false -> fh_version h = 63002 -> (4 <= n)%nat ->
  reads fhdr_unmarshal (mix n (hdrb h) (repeat 0 63)) (hdr_torn n h).
Proof.
  intros HO HB HV Hn. rewrite (hdrb_split h HO HB). destruct HO as (Hv & Hb & Hs & Hnf & Hn' & Hnn & Hu & Hc & Hni & Huu). rewrite HB in Hs.
  destruct Hs as (He & Hsf & Hsi). rewrite !to_i32_id by assumption.
  assert (length (fh_uuid h) = 16%nat) as Lu by (rewrite zlen_def in Huu; lia).
  change (repeat 0 63) with (z4 ++ z4 ++ z4 ++ z4 ++ z4 ++ z4 ++ z4 ++ z4 ++ repeat 0 1 ++ z4 ++ z4 ++ z4 ++ repeat 0 2 ++ repeat 0 16).
  rewrite (mix_app n (bs "root")) by reflexivity. rewrite (mix_all n (bs "root") z4) by (cbn; lia). change (length (bs "root")) with 4%nat.
  do 7 rewrite mix_app4.
  rewrite (mix_app _ (be 1 (fh_units h))) by now rewrite be_length.
  do 3 rewrite mix_app4. rewrite (mix_app _ (be 2 1)) by now rewrite be_length. rewrite !be_length.
  replace (n - 4 - 4)%nat with (n - 8)%nat by lia. replace (n - 8 - 4)%nat with (n - 12)%nat by lia.
  replace (n - 12 - 4)%nat with (n - 16)%nat by lia. replace (n - 16 - 4)%nat with (n - 20)%nat by lia.
  replace (n - 20 - 4)%nat with (n - 24)%nat by lia. replace (n - 24 - 4)%nat with (n - 28)%nat by lia.
  replace (n - 28 - 4)%nat with (n - 32)%nat by lia. replace (n - 32 - 1)%nat with (n - 33)%nat by lia.
  replace (n - 33 - 4)%nat with (n - 37)%nat by lia. replace (n - 37 - 4)%nat with (n - 41)%nat by lia.
  replace (n - 41 - 4 - 2)%nat with (n - 47)%nat by lia.
  apply fhdr_any; try apply mix4_len.
  - rewrite mix_zlen; [reflexivity|now rewrite zlen_be].
  - rewrite mix_zlen; [reflexivity|now rewrite zlen_be].
  - rewrite mix_zlen; [reflexivity|exact Huu].
  - rewrite HV. apply t4_version.
Qed.

(** What opening makes of a disk that starts with such a header. *)
Lemma torn_start D n h c : fhdr_ok h -> fhdr_big h = false -> fh_version h = 63002 -> (4 <= n)%nat ->
  D = mix n (hdrb h) (repeat 0 63) ++ c -> 76 <= zlen D ->
  exists b, read_at D 0 76 = Ok b /\ rrun 0 fhdr_unmarshal b = Ok (hdr_torn n h).
Proof.
  intros HO HB HV Hn ED SZ. pose proof (hdr_torn_reads n h HO HB HV Hn) as R.
  assert (zlen (mix n (hdrb h) (repeat 0 63)) = 63) as L by (rewrite mix_zlen; [reflexivity|rewrite (hdr_small_len h HO HB); reflexivity]).
  revert R ED L. generalize (mix n (hdrb h) (repeat 0 63)). intros w R ED L. rewrite ED, zlen_app, L in SZ.
  destruct (zsub_split c 0 13) as (a' & b' & E & LA'); [lia|lia|lia|]. apply zlen_0_nil in LA'. subst a'. cbn [app] in E.
  assert (zlen (zsub c 0 13) = 13) as LX by (apply zsub_length; lia).
  exists (w ++ zsub c 0 13). split; [|now apply reads_rrun].
  apply read_at_seg; [|rewrite zlen_app, L, LX; reflexivity|lia]. exists [], b'. split; [|reflexivity].
  rewrite ED. rewrite E at 1. cbn [app]. now rewrite <- app_assoc.
Qed.

(** With no end of file yet, or no length of the name, the directory is not found. *)
Lemma dir_info_no_end D h : fh_end h = 0 -> forall r, read_dir_info D h <> Ok r.
Proof.
  intros E r. unfold read_dir_info. rewrite E. change (to_u64 0) with 0.
  assert (0 < to_u64 (fh_nbname h) + record_size (fh_version h) + to_u64 (fh_begin h)) as Q.
  { unfold to_u64, wrap_u. pose proof (pow256_pos 8) as Q8. pose proof (Z.mod_pos_bound (fh_nbname h) _ Q8). pose proof (Z.mod_pos_bound (fh_begin h) _ Q8).
    unfold record_size. destruct (40000 <=? _); lia. }
  unfold u64_add. destruct (Z.ltb_spec (to_u64 (fh_nbname h) + record_size (fh_version h)) (2 ^ 64)); cbn [rbind]; [|intros X; discriminate X].
  destruct (Z.ltb_spec (to_u64 (fh_nbname h) + record_size (fh_version h) + to_u64 (fh_begin h)) (2 ^ 64)); cbn [rbind]; [|intros X; discriminate X].
  destruct (Z.ltb_spec 0 (to_u64 (fh_nbname h) + record_size (fh_version h) + to_u64 (fh_begin h))); [intros X; discriminate X|lia].
Qed.

Lemma be_4_2 z : be 4 z = be 2 (z / 65536) ++ be 2 z.
Proof.
  cbn [be app Z.of_nat Pos.of_succ_nat Pos.succ]. change (256 ^ 3) with 16777216. change (256 ^ 2) with 65536. change (256 ^ 1) with 256. change (256 ^ 0) with 1.
  rewrite !Z.div_div by lia. reflexivity.
Qed.

(** Read from its start instead of its end, the name record does not make a directory. *)
Lemma dir_info_no_name D h path x : path_ok path -> nbname path <= 1000 -> fh_version h = 63002 -> fh_begin h = 100 -> fh_nbname h = 0 ->
  seg D 100 (name_rec path ++ x) -> 48 <= zlen x -> forall r, read_dir_info D h <> Ok r.
Proof.
  intros P PL V B N S LX r. pose proof (E0_pos path P) as HE0. unfold E0 in HE0.
  unfold read_dir_info. rewrite V, B, N. change (record_size 63002) with 60. change (to_u64 100) with 100. change (to_u64 0) with 0.
  change (u64_add 0 60) with (@Ok Z 60). cbn [rbind]. change (u64_add 60 100) with (@Ok Z 160). cbn [rbind].
  destruct (_ <? 160); [intros X; discriminate X|].
  destruct (tkey_ok path P) as [K L]. pose proof (name_rec_len path P) as LN.
  destruct K as (Hn & Hr & Ho & Hd & Hkl & Hc & Hbig & Hs & Sc & Sn & St).
  destruct (rt_date (k_date (tkey path)) Hd) as (wd & Ld & Wd & _).
  assert (khdr (tkey path) = be 4 (k_nbytes (tkey path)) ++ be 2 4 ++ be 4 (k_objlen (tkey path)) ++ wd ++ be 2 (to_i16 (path_keylen path)) ++ be 2 1 ++
    be 4 (to_i32 100) ++ be 4 (to_i32 0) ++ str_bytes (bs "TFile") ++ str_bytes path ++ str_bytes []) as EK.
  { unfold khdr. apply writes_wbytes. unfold key_marshal.
    destruct (Z.ltb_spec (k_nbytes (tkey path)) 0); [lia|]. change (k_rvers (tkey path)) with 4. change (k_seek (tkey path)) with 100.
    change (kStartBigFile <? 100) with false. cbn [andb].
    change (1000 <? 4) with false. cbv iota.
    eapply writes_bind; [apply (writes_int 4)|intros _].
    eapply writes_bind; [apply (writes_int 2)|intros _].
    eapply writes_bind; [apply (writes_int 4)|intros _].
    eapply writes_bind; [exact Wd|intros _].
    eapply writes_bind; [apply (writes_int 2)|intros _].
    eapply writes_bind; [apply (writes_int 2)|intros _].
    rewrite app_assoc.
    eapply writes_bind; [eapply writes_bind; [apply (writes_int 4)|intros _; apply (writes_int 4)]|intros _].
    eapply writes_bind; [now apply writes_str|intros _].
    eapply writes_bind; [now apply writes_str|intros _]. now apply writes_str. }
  set (kl := path_keylen path) in *.
  assert (33 < kl <= 1000) as Bk.
  { unfold kl. rewrite path_keylen_eq in *. unfold nbname in PL. rewrite path_keylen_eq in PL. change (tstring_sizeof []) with 1 in PL.
    destruct P as [Ps _]. pose proof (tstring_pos path Ps). lia. }
  assert (0 <= k_nbytes (tkey path) <= 2000) as Bn.
  { unfold tkey. cbn [k_nbytes]. fold kl. unfold nbname in PL. fold kl in PL. change (tstring_sizeof []) with 1 in *.
    destruct P as [Ps _]. pose proof (tstring_pos path Ps). lia. }
  unfold name_rec in S. rewrite EK in S. clear EK Wd Hd.
  assert (zlen (str_bytes path ++ str_bytes [] ++ str_bytes path ++ str_bytes [] ++ x) >= 52) as LS.
  { rewrite !zlen_app. destruct P as [Ps _]. rewrite (proj2 (writes_str path Ps)), (proj2 (writes_str [] str_ok_nil)).
    change (tstring_sizeof []) with 1. pose proof (tstring_pos path Ps). lia. }
  revert S. rewrite <- !app_assoc.
  set (t := str_bytes path ++ str_bytes [] ++ _) in *. clearbody t. intros S.
  change (str_bytes (bs "TFile")) with ([5; 84; 70; 105] ++ [108; 101]) in S. rewrite <- !app_assoc in S.
  destruct (zsub_split t 0 16) as (a & t' & E & LA); [lia|lia|lia|]. apply zlen_0_nil in LA. subst a. cbn [app] in E.
  assert (LU : zlen (zsub t 0 16) = 16) by (apply zsub_length; lia).
  assert (LT : 36 <= zlen t') by (apply (f_equal zlen) in E; rewrite zlen_app, LU in E; lia).
  revert E LU. generalize (zsub t 0 16). intros uu E LU. subst t.
  destruct (zsub_split t' 0 12) as (a & t2 & E & LA); [lia|lia|lia|]. apply zlen_0_nil in LA. subst a. cbn [app] in E.
  assert (LT2 : zlen (zsub t' 0 12) = 12) by (apply zsub_length; lia).
  revert E LT2. generalize (zsub t' 0 12). intros y E LY. subst t'.
  rewrite (be_4_2 (k_nbytes (tkey path))) in S.
  set (rd := be 2 (k_nbytes (tkey path) / 65536) ++ (be 2 (k_nbytes (tkey path)) ++ be 2 4) ++ be 4 (k_objlen (tkey path)) ++ wd ++
    (be 2 (to_i16 kl) ++ be 2 1) ++ be 4 (to_i32 100) ++ be 4 (to_i32 0) ++ [5; 84; 70; 105] ++ [108; 101] ++ uu).
  assert (zlen rd = 48) as LR by (unfold rd; rewrite !zlen_app, !zlen_be, Ld, LU; reflexivity).
  assert (seg D 100 (rd ++ y)) as S'.
  { destruct S as (a & c & ED & LA). exists a, (t2 ++ c). split; [|exact LA]. rewrite ED. unfold rd. rewrite <- !app_assoc. reflexivity. }
  rewrite (read_at_seg D 100 60 (rd ++ y) S') by (rewrite ?zlen_app, ?LR, ?LY; lia). cbn [rbind].
  assert (sgn 2 (de (be 2 (k_nbytes (tkey path) / 65536))) <= 1000) as RV.
  { rewrite Z.div_small by lia. vm_compute. discriminate. }
  rewrite Z.sub_0_r. replace (zsub (rd ++ y) 0 (zlen (rd ++ y))) with (rd ++ y)
    by (symmetry; pose proof (zsub_tail [] (rd ++ y) 0 eq_refl) as ZT; rewrite Z.sub_0_r in ZT; exact ZT).
  pose proof (dir_any (be 2 (k_nbytes (tkey path) / 65536)) (be 2 (k_nbytes (tkey path)) ++ be 2 4) (be 4 (k_objlen (tkey path))) wd
    (be 2 (to_i16 kl) ++ be 2 1) (be 4 (to_i32 100)) (be 4 (to_i32 0)) [5; 84; 70; 105] [108; 101] uu
    (zlen_be _ _) eq_refl (zlen_be _ _) Ld eq_refl (zlen_be _ _) (zlen_be _ _) eq_refl eq_refl LU RV) as DR. fold rd in DR.
  rewrite (reads_rrun _ _ _ 0 y DR).
  cbn [rbind]. cbn [d_nbname].
  replace (i4 (be 2 (to_i16 kl) ++ be 2 1)) with (kl * 65536 + 1).
  2: { rewrite de_app, !de_be, zlen_be. rewrite to_i16_id by (red; lia). change (256 ^ Z.of_nat 2) with 65536. unfold sgn. change (256 ^ Z.of_nat 4 / 2) with 2147483648.
       rewrite (Z.mod_small kl) by lia. change (1 mod 65536) with 1. destruct (Z.ltb_spec (kl * 65536 + 1) 2147483648); lia. }
  destruct (rrun 0 read_i16 _); cbn [rbind]; try (intros X; discriminate X).
  match goal with |- context [if zlen ?u <? ?v then _ else _] => destruct (zlen u <? v) end; try (intros X; discriminate X).
  destruct (rrun 0 _ _) as [((cc & nn) & tt)| | | |]; cbn [rbind]; try (intros X; discriminate X).
  destruct (Z.ltb_spec 1000 (kl * 65536 + 1)); [|lia]. rewrite orb_true_r. intros X; discriminate X.
Qed.

(** ** Opening with a header that is not quite the one written *)
Lemma open_any path D b h d keys spans sis :
  path_ok path -> nbname path <= 1000 -> zlen D < 2 ^ 63 ->
  read_at D 0 76 = Ok b -> rrun 0 fhdr_unmarshal b = Ok h ->
  fh_version h = 63002 -> fh_begin h = 100 -> fh_nbname h = nbname path -> E0 path <= fh_end h < 2 ^ 63 ->
  dir_ok d -> dir_big d = false -> d_nbname d = nbname path ->
  (exists pad, zlen pad = 12 /\ seg D 100 (name_rec path ++ dirb d ++ pad)) ->
  Forall key_good keys -> zlen keys < 2 ^ 31 ->
  100 <= d_seekkeys d -> d_seekkeys d + k_nbytes (kkey path keys (d_seekkeys d)) <= kStartBigFile ->
  d_nbkeys d = k_nbytes (kkey path keys (d_seekkeys d)) ->
  seg D (d_seekkeys d) (rec (kkey path keys (d_seekkeys d))) ->
  (if 0 <? fh_seekfree h then read_free_segments D h else Ok []) = Ok spans ->
  (if 0 <? fh_seekinfo h then read_sinfos D h else Ok []) = Ok sis ->
  open_file D = Ok (mkFile (IORead D) h (d_set_keys (dir_open path d) (map key_listed keys)) spans sis []).
Proof.
  intros P PN SZ RB RH V B N HE DO DB DN (pad & LP & DS) KG KL SK SK2 NK KS HF HI.
  unfold open_file. rewrite RB. cbn [rbind]. rewrite RH. cbn [rbind].
  rewrite (read_dir_ok D h d path pad) by (assumption || lia). cbn [rbind].
  rewrite HF. cbn [rbind]. rewrite HI. cbn [rbind].
  rewrite (read_keys_ok D (dir_open path d) path keys (d_seekkeys d)) by (assumption || lia || reflexivity).
  reflexivity.
Qed.

Lemma read_sinfos_some D h sis sbuf e :
  100 <= e -> e + k_nbytes (skey sbuf e) <= kStartBigFile -> e < fh_end h ->
  Forall sinfo_ok sis -> zlen sis < 2 ^ 31 -> wrun si_keylen (sinfos_marshal sis) = Ok sbuf -> 3 <= zlen sbuf ->
  fh_seekinfo h = e -> si_keylen <= fh_nbinfo h <= k_nbytes (skey sbuf e) ->
  seg D e (rec (skey sbuf e)) -> zlen D < 2 ^ 63 ->
  read_sinfos D h = Ok (map sinfo_seen (rev sis)).
Proof.
  intros He Hb Hend SO SL SW S3 E1 E2 SG HD. set (ks := skey sbuf e) in *.
  assert (KG : key_good ks) by (apply skey_good; [lia|exact Hb]).
  destruct (key_good_hdr ks KG) as (LH & RH). change (k_keylen ks) with si_keylen in LH.
  pose proof (key_len_pos _ _ _ names_ok_si) as Ls. fold si_keylen in Ls.
  assert (Ns : k_nbytes ks = si_keylen + zlen sbuf) by reflexivity. unfold kStartBigFile in Hb.
  unfold read_sinfos. rewrite E1. replace ((e <=? 0) || (fh_end h <=? e)) with false by (symmetry; lia).
  destruct (zsub_split sbuf 0 (fh_nbinfo h - si_keylen)) as (a & c & E & LA); [lia|lia|lia|]. apply zlen_0_nil in LA. subst a. cbn [app] in E.
  assert (LX : zlen (zsub sbuf 0 (fh_nbinfo h - si_keylen)) = fh_nbinfo h - si_keylen) by (apply zsub_length; lia).
  rewrite (read_at_ok D e (fh_nbinfo h) (khdr ks ++ zsub sbuf 0 (fh_nbinfo h - si_keylen))); [| |rewrite zlen_app, LH, LX; lia|exact HD].
  2: { destruct SG as (a & c' & ED & LA). exists a, (c ++ c'). split; [|exact LA]. rewrite ED. unfold rec. change (k_buffer ks) with sbuf.
       rewrite E at 1. now rewrite <- !app_assoc. }
  cbn [rbind]. rewrite (reads_rrun _ _ _ _ _ RH). cbn [rbind].
  unfold key_object. rewrite key_bytes_ok; [|exact KG|reflexivity|reflexivity|cbn; lia|exact SG|exact HD]. cbn [rbind].
  change (k_class (key_seen ks)) with (bs "TList"). change (negb (known (bs "TList"))) with false. cbv iota.
  change (k_buffer ks) with sbuf. change (k_keylen (key_seen ks)) with si_keylen.
  assert (exists n, S (length sbuf) = S (S (S (S n)))) as (n & ->).
  { rewrite zlen_def in S3. destruct (length sbuf) as [|[|[|n]]] eqn:EL; try lia. now exists n. }
  rewrite (sim0_rrun _ _ _ _ _ _ (sinfos_sim n sis SO SL) SW) by lia. cbn [rbind].
  rewrite <- map_rev. induction (rev sis) as [|s l IH]; [reflexivity|].
  cbn [map pick_sinfos]. rewrite IH. reflexivity.
Qed.

Lemma seg_swap a a' c p s : zlen a = zlen a' -> zlen a <= p -> seg (a ++ c) p s -> seg (a' ++ c) p s.
Proof.
  intros E H (x & y & ED & L). apply app_split in ED as [(z & -> & ->)|(z & -> & ED)].
  - exists (a' ++ z), y. split; [now rewrite <- !app_assoc|]. rewrite zlen_app in *. lia.
  - rewrite zlen_app in *. pose proof (zlen_nonneg z). assert (z = []) as -> by (apply zlen_0_nil; lia). cbn [app] in ED.
    exists a', y. subst c. split; [now rewrite ?app_nil_r|]. rewrite (@zlen_nil Z) in *. lia.
Qed.

Section Torn.
Variables (path : bytes) (ts : list table) (es : list (list (nat * event))) (f : file)
  (keys : list key) (sis : list sinfo) (recs : list bytes) (rest : list (Z * bytes)) (sis' : list sinfo) (sbuf : bytes).
Hypothesis (P : path_ok path) (W : Forall table_ok ts) (NB : nbname path <= 1000)
  (CS : closed_session real_db path (map calls ts) es keys sis recs (create_log path ++ rest) sis' sbuf f).
Notation e := (E0 path + rsize recs).
Notation kk := (kkey path keys e).
Notation e1 := (e + k_nbytes kk).
Notation ks := (skey sbuf e1).
Notation e2 := (e1 + k_nbytes ks).
Notation kf := (fkey path e2).
Notation h1 := (hdr1 path keys sbuf e).
Notation d1 := (dir1 path keys e).
Notation log := (create_log path ++ rest).

Let Zt := repeat 0 37 ++ (name_rec path ++ dirb d1) ++ tail (recs ++ [rec kk; rec ks; rec kf]).
Let Dn n := mix n (hdrb h1) (repeat 0 63) ++ Zt.

Lemma h1_facts : fhdr_ok h1 /\ fhdr_big h1 = false /\ zlen (hdrb h1) = 63.
Proof.
  destruct CS as [S LL G NK HE SO SC SR SB S4 _].
  pose proof (closed_sizes path keys recs sbuf P HE) as (S0 & S1 & _).
  destruct (hdr1_ok path keys sbuf e P (proj2 S0) HE) as (HO1 & HB1). split; [exact HO1|]. split; [exact HB1|]. now apply hdr_small_len.
Qed.

Lemma torn_len n : zlen (mix n (hdrb h1) (repeat 0 63)) = 63.
Proof. rewrite mix_zlen; [reflexivity|]. rewrite (proj2 (proj2 h1_facts)). reflexivity. Qed.

Lemma closed_tail : disk_of (log ++ close_log path keys sbuf e) = hdrb h1 ++ Zt.
Proof.
  destruct CS as [S LL G NK HE SO SC SR SB S4 _].
  rewrite (proj1 (disk_closed path keys recs log sbuf P LL HE)). unfold base, Zt. now rewrite <- !app_assoc.
Qed.

Lemma torn_segs n : zlen (Dn n) = e2 + k_nbytes kf /\ seg (Dn n) 100 (name_rec path ++ dirb d1 ++ repeat 0 12) /\
  seg (Dn n) (E0 path) (concat recs) /\ seg (Dn n) e (rec kk) /\ seg (Dn n) e1 (rec ks) /\ seg (Dn n) e2 (rec kf).
Proof.
  pose proof closed_tail as CT. pose proof h1_facts as (_ & _ & LH). pose proof (torn_len n) as LT.
  destruct CS as [S LL G NK HE SO SC SR SB S4 _].
  destruct (closed_segs path keys recs log sbuf P LL HE) as (_ & A1 & A2 & A3 & A4 & A5).
  destruct (disk_closed path keys recs log sbuf P LL HE) as (_ & LD).
  destruct (closed_sizes path keys recs sbuf P HE) as (Z0 & Z1 & Z2 & Z3 & Z4 & _). pose proof (E0_pos path P).
  rewrite CT in *. unfold Dn.
  split; [rewrite zlen_app, LT; rewrite zlen_app, LH in LD; exact LD|].
  repeat match goal with |- _ /\ _ => split end; (apply (seg_swap (hdrb h1)); [now rewrite LT, LH|rewrite LH; lia|assumption]).
Qed.

(** How the torn header reads. *)
Lemma torn_opens n : (4 <= n)%nat -> exists b, read_at (Dn n) 0 76 = Ok b /\ rrun 0 fhdr_unmarshal b = Ok (hdr_torn n h1).
Proof.
  intros Hn. destruct h1_facts as (HO & HB & LH). destruct (torn_segs n) as (LD & _).
  apply (torn_start (Dn n) n h1 Zt HO HB); [reflexivity|exact Hn|reflexivity|].
  destruct CS as [S LL G NK HE SO SC SR SB S4 _].
  destruct (closed_sizes path keys recs sbuf P HE) as (Z0 & Z1 & Z2 & Z3 & Z4 & _). pose proof (E0_pos path P). lia.
Qed.

Lemma t4_eq k v w : is_i32 v -> (4 <= k)%nat -> v = w -> t4 k v = w.
Proof. intros H K <-. now apply t4_full. Qed.

Lemma torn_shows n fo : f_io fo = IORead (Dn n) -> d_keys (f_dir fo) = map key_listed keys ->
  f_sinfos fo = [] \/ f_sinfos fo = map sinfo_seen (rev sis') -> shows_tables fo ts.
Proof.
  intros IO DK FS. destruct (torn_segs n) as (LD & _ & SR' & _).
  destruct CS as [S LL G NK HE SO SC SR SB S4 _ FW]. destruct S as [L ST CY IN UN _ EV SL]. specialize (IN FW).
  destruct (closed_sizes path keys recs sbuf P HE) as (Z0 & Z1 & Z2 & Z3 & Z4 & _).
  apply (records_read path ts keys recs fo (Dn n)); try assumption.
  - rewrite LD. lia.
  - intros s CT. destruct FS as [->| ->].
    + unfold sis_for. destruct (w_class (cs_ty s)) as [c|]; [|exact I]. destruct (cs_ty s); try exact I. intros si Hsi. discriminate Hsi.
    + apply (src_sis_for real_db); [exact real_db_ok|assumption|assumption].
Qed.

(** Every way of cutting the last write. *)
Lemma torn_early n : (n <= 30)%nat \/ (n = 31%nat /\ nbname path < 256) -> refused (Dn n).
Proof.
  intros Hn fo. pose proof h1_facts as (HO & HB & LH). pose proof (torn_segs n) as (LD & SN & _).
  destruct (lt_dec n 4) as [H4|H4].
  { rewrite foreign_panics; [discriminate| |].
    - destruct CS as [S LL G NK HE SO SC SR SB S4 _].
      destruct (closed_sizes path keys recs sbuf P HE) as (Z0 & Z1 & Z2 & Z3 & Z4 & _). rewrite LD. lia.
    - unfold Dn. rewrite (hdrb_split h1 HO HB). change (repeat 0 63) with (repeat 0 4 ++ repeat 0 59).
      rewrite mix_app by reflexivity. rewrite <- app_assoc.
      destruct n as [|[|[|[|]]]]; try lia; cbn; discriminate. }
  destruct (torn_opens n) as (b & RB & RH); [lia|]. unfold open_file. rewrite RB. cbn [rbind]. rewrite RH. cbn [rbind].
  assert (forall r, read_dir_info (Dn n) (hdr_torn n h1) <> Ok r) as NR.
  { destruct (le_lt_dec n 12) as [H12|H12].
    - apply dir_info_no_end. unfold hdr_torn. cbn [fh_end]. replace (n - 12)%nat with 0%nat by lia. apply t4_0.
    - apply (dir_info_no_name (Dn n) (hdr_torn n h1) path (dirb d1 ++ repeat 0 12) P NB).
      + unfold hdr_torn. cbn [fh_version]. rewrite (t4_eq _ _ 63002); [reflexivity|red; cbn; lia|lia|reflexivity].
      + unfold hdr_torn. cbn [fh_begin]. apply t4_eq; [red; cbn; lia|lia|reflexivity].
      + unfold hdr_torn. cbn [fh_nbname]. change (fh_nbname h1) with (nbname path). pose proof (E0_pos path P) as HE0. unfold E0 in HE0.
        assert (0 <= nbname path < 2 ^ 31) as RN by lia. pose proof (t4_range (n - 28) _ RN).
        destruct (Z.eq_dec (t4 (n - 28) (nbname path)) 0) as [E|E]; [exact E|exfalso].
        destruct Hn as [Hn|[-> Hn]].
        * rewrite t4_sgn in E by exact RN. rewrite de_zeros in E by (apply mix_bytes; [apply be_bytes_ok|repeat constructor; lia]). apply E.
          unfold mix. apply zeros_app. split.
          -- cbn [be Z.of_nat Pos.of_succ_nat Pos.succ]. change (256 ^ 3) with 16777216. change (256 ^ 2) with 65536.
             rewrite (Z.div_small _ 16777216), (Z.div_small _ 65536) by lia.
             destruct (n - 28)%nat as [|[|[|k]]] eqn:EK; [constructor|repeat constructor|repeat constructor|lia].
          -- assert (zeros z4) as Z1 by apply (zeros_repeat 4). rewrite <- (firstn_skipn (n - 28) z4) in Z1. apply zeros_app in Z1. apply Z1.
        * apply (t4_big _ _ RN) in E; lia.
      + exact SN.
      + rewrite zlen_app. pose proof (zlen_nonneg (repeat 0 12)).
        destruct CS as [S LL G NK HE SO SC SR SB S4 _]. rewrite (dir1_len path keys sbuf recs P HE). lia. }
  destruct (read_dir_info (Dn n) (hdr_torn n h1)) as [r| | | |]; cbn [rbind]; try discriminate. now contradiction (NR r).
Qed.

Lemma e_sizes : 190 < E0 path /\ E0 path <= e /\ e < e1 /\ e1 < e2 /\ e2 < e2 + k_nbytes kf /\ e2 + k_nbytes kf <= 2000000000 /\
  fh_end h1 = e2 + k_nbytes kf.
Proof.
  destruct CS as [S LL G NK HE SO SC SR SB S4 _].
  destruct (closed_sizes path keys recs sbuf P HE) as (Z0 & Z1 & Z2 & Z3 & Z4 & _). repeat split; try assumption; try lia.
Qed.

(** The fields before the class descriptions are complete. *)
Lemma torn_fields n : (32 <= n)%nat -> fh_version (hdr_torn n h1) = 63002 /\ fh_begin (hdr_torn n h1) = 100 /\ fh_nbname (hdr_torn n h1) = nbname path /\
  fh_end (hdr_torn n h1) = e2 + k_nbytes kf /\ fh_seekfree (hdr_torn n h1) = e2 /\ fh_nbfree (hdr_torn n h1) = k_nbytes kf /\
  fh_seekinfo (hdr_torn n h1) = t4 (n - 37) e1 /\ fh_nbinfo (hdr_torn n h1) = t4 (n - 41) (k_nbytes ks).
Proof.
  intros Hn. pose proof e_sizes as (Z0 & Z1 & Z2 & Z3 & Z4 & Z5 & _). pose proof (E0_pos path P) as HE0. unfold E0 in HE0.
  unfold hdr_torn. cbn [fh_version fh_begin fh_nbname fh_end fh_seekfree fh_nbfree fh_seekinfo fh_nbinfo].
  split; [rewrite (t4_eq _ _ 63002); [reflexivity|red; cbn; lia|lia|reflexivity]|].
  split; [apply t4_eq; [red; cbn; lia|lia|reflexivity]|].
  split; [apply t4_eq; [change (fh_nbname h1) with (nbname path); red; lia|lia|reflexivity]|].
  split; [apply t4_eq; [change (fh_end h1) with (e2 + k_nbytes kf); red; lia|lia|reflexivity]|].
  split; [apply t4_eq; [change (fh_seekfree h1) with e2; red; lia|lia|reflexivity]|].
  split; [apply t4_eq; [change (fh_nbfree h1) with (k_nbytes kf); red; lia|lia|reflexivity]|].
  split; reflexivity.
Qed.

Lemma torn_open_with n l : (32 <= n)%nat ->
  (if 0 <? t4 (n - 37) e1 then read_sinfos (Dn n) (hdr_torn n h1) else Ok []) = Ok l ->
  open_file (Dn n) = Ok (mkFile (IORead (Dn n)) (hdr_torn n h1) (d_set_keys (dir_open path d1) (map key_listed keys))
     [mkSeg (e2 + k_nbytes kf) kStartBigFile] l []).
Proof.
  intros Hn RS. destruct (torn_opens n) as (b & RB & RH); [lia|].
  destruct (torn_fields n Hn) as (F1 & F2 & F3 & F4 & F5 & F6 & F7 & F8).
  pose proof e_sizes as (Z0 & Z1 & Z2 & Z3 & Z4 & Z5 & _). destruct (torn_segs n) as (LD & SN & _ & SK & SS & SF).
  destruct CS as [S LL G NK HE SO SC SR SB S4 _]. destruct (d1_ok path keys recs sbuf P HE) as (DO & DB).
  apply (open_any path (Dn n) b (hdr_torn n h1) d1 keys); try assumption; try reflexivity.
  - rewrite LD. lia.
  - rewrite F4. lia.
  - exists (repeat 0 12). split; [reflexivity|exact SN].
  - change (d_seekkeys d1) with e. lia.
  - change (d_seekkeys d1) with e. unfold kStartBigFile. lia.
  - rewrite F5. destruct (Z.ltb_spec 0 e2); [|lia].
    apply read_free_ok; [exact P|lia| |exact F5|exact F6|exact SF|rewrite LD; lia].
    unfold kStartBigFile. lia.
Qed.

Lemma torn_late n : (32 <= n)%nat ->
  (t4 (n - 37) e1 = 0 -> exists fo, open_file (Dn n) = Ok fo /\ shows_tables fo ts /\ f_sinfos fo = []) /\
  (t4 (n - 37) e1 <> 0 -> t4 (n - 41) (k_nbytes ks) = 0 -> refused (Dn n)) /\
  (t4 (n - 41) (k_nbytes ks) <> 0 -> whole (Dn n) ts).
Proof.
  intros Hn. pose proof e_sizes as (Z0 & Z1 & Z2 & Z3 & Z4 & Z5 & _).
  destruct (torn_fields n Hn) as (F1 & F2 & F3 & F4 & F5 & F6 & F7 & F8).
  pose proof (t4_range (n - 37) e1 ltac:(lia)) as R1. pose proof (t4_range (n - 41) (k_nbytes ks) ltac:(lia)) as R2.
  destruct (torn_segs n) as (LD & SN & _ & SK & SS & SF).
  split; [|split].
  - intros E. eexists. split; [apply torn_open_with; [exact Hn|]|split].
    + rewrite E. reflexivity.
    + apply (torn_shows n); [reflexivity|reflexivity|now left].
    + reflexivity.
  - intros E1 E2 fo. destruct (torn_opens n) as (b & RB & RH); [lia|]. unfold open_file. rewrite RB. cbn [rbind]. rewrite RH. cbn [rbind].
    assert (forall r, read_sinfos (Dn n) (hdr_torn n h1) <> Ok r) as NR.
    { intros r. unfold read_sinfos. rewrite F7, F8, F4, E2. destruct (_ || _); [discriminate|].
      rewrite (read_at_seg (Dn n) (t4 (n - 37) e1) 0 []); [vm_compute; discriminate| |reflexivity|lia].
      destruct (zsub_split (Dn n) (t4 (n - 37) e1) 0) as (a & c & E & LA); [lia|lia|rewrite LD; lia|].
      exists a, c. split; [|exact LA]. rewrite E at 1. f_equal. }
    rewrite F7. destruct (Z.ltb_spec 0 (t4 (n - 37) e1)); [|lia].
    destruct (read_dir_info _ _); cbn [rbind]; try discriminate.
    destruct (if 0 <? fh_seekfree _ then _ else _); cbn [rbind]; try discriminate.
    destruct (read_sinfos (Dn n) (hdr_torn n h1)) as [r| | | |]; cbn [rbind]; try discriminate. now contradiction (NR r).
  - intros E2. assert (41 < n)%nat as N41.
    { destruct (le_lt_dec n 41) as [H|H]; [|exact H]. contradiction E2. replace (n - 41)%nat with 0%nat by lia. apply t4_0. }
    assert (t4 (n - 37) e1 = e1) as EQ by (apply t4_full; [red; lia|lia]).
    assert (si_keylen <= 256) as KL by (vm_compute; discriminate).
    assert (si_keylen <= t4 (n - 41) (k_nbytes ks)) as KB.
    { destruct (le_lt_dec (n - 41) 3) as [H|H].
      - pose proof (t4_big (n - 41) (k_nbytes ks) ltac:(lia) E2 H). lia.
      - rewrite t4_full by (try (red; lia); lia). change (k_nbytes ks) with (si_keylen + zlen sbuf). pose proof (zlen_nonneg sbuf). lia. }
    eexists. split; [apply torn_open_with with (l := map sinfo_seen (rev sis')); [exact Hn|]|].
    + rewrite EQ. destruct (Z.ltb_spec 0 e1); [|lia]. destruct CS as [S LL G NK HE SO SC SR SB S4 _].
      apply (read_sinfos_some (Dn n) _ sis' sbuf e1); try assumption; try lia. unfold kStartBigFile. lia.
    + apply (torn_shows n); [reflexivity|reflexivity|now right].
Qed.

(** *** The disks themselves *)
Notation before := (create_log path ++ rest ++ rec_writes kk).
Notation save := (100 + nbname path, dirb d1).
Notation mid := (rec_writes ks ++ rec_writes kf).

Lemma window_whole l : Forall (fun w => e1 <= fst w) l -> zlen (disk_of ((before ++ [save]) ++ l)) < 2 ^ 63 ->
  whole (disk_of ((before ++ [save]) ++ l)) ts.
Proof.
  intros F HL. pose proof e_sizes as (Z0 & Z1 & Z2 & Z3 & Z4 & Z5 & _).
  destruct CS as [S LL G NK HE SO SC SR SB S4 _ FW]. destruct S as [L ST CY IN UN _ EV SL].
  pose proof (disk_saved path keys recs log sbuf P LL HE) as DS. rewrite tail_snoc in DS.
  pose proof (b_len path keys recs sbuf P HE) as (_ & L1 & _).
  pose proof (closed_sizes path keys recs sbuf P HE) as S'.
  assert (exists x, disk_of ((before ++ [save]) ++ l) = base path (hdr0 path) d1 ++ repeat 0 12 ++ concat recs ++ rec kk ++ x) as (x & EX).
  { rewrite disk_of_app. replace (before ++ [save]) with (log ++ rec_writes kk ++ [save]) by now rewrite <- !app_assoc. rewrite DS.
    destruct (fold_keeps l (base path (hdr0 path) d1 ++ repeat 0 12 ++ concat recs ++ rec kk) []) as (y & EY).
    { eapply Forall_impl; [|exact F]. intros w Hw. cbv beta in *. rewrite !zlen_app, L1, zlen_repeat. unfold rsize in *. lia. }
    rewrite app_nil_r in EY. rewrite EY. exists y. now rewrite <- !app_assoc. }
  rewrite EX in *. pose proof (opens_window path keys recs sbuf P G NK HE x NB HL) as OW.
  eexists. split; [exact OW|]. revert HL. generalize (base path (hdr0 path) d1) L1. intros b1 LB HL.
  eapply (records_read path ts keys recs); [exact P|exact W|exact HL| |exact ST|exact (IN FW)|reflexivity|reflexivity|].
  - exists (b1 ++ repeat 0 12), (rec kk ++ x). split; [now rewrite <- !app_assoc|]. rewrite zlen_app, LB, zlen_repeat. lia.
  - intros s CT. unfold sis_for. destruct (w_class (cs_ty s)) as [c|]; [|exact I]. destruct (cs_ty s); try exact I.
    intros si Hsi. discriminate Hsi.
Qed.

Lemma disk_before : exists pre post, zlen pre = 100 + nbname path /\ disk_of before = pre ++ dirb (dir_at path 0 0) ++ post /\
  (forall d, pre ++ dirb d ++ post = base path (hdr0 path) d ++ post) /\
  disk_of (before ++ [save]) = pre ++ dirb d1 ++ post.
Proof.
  destruct CS as [S LL G NK HE SO SC SR SB S4 _].
  destruct (closed_sizes path keys recs sbuf P HE) as (B0 & B1 & B2 & B3 & B4 & KG & SG & FG & LK & LS & LF).
  destruct (b_len path keys recs sbuf P HE) as (L0 & L1 & _). destruct (hdr0_ok path P) as (HO & HB).
  pose proof (hdr_small_len _ HO HB) as LH. pose proof (name_rec_len path P) as LN.
  exists (hdrb (hdr0 path) ++ repeat 0 37 ++ name_rec path), (tail (recs ++ [rec kk])).
  split; [rewrite !zlen_app, LH, zlen_repeat, LN; lia|]. split; [|split].
  - replace before with (log ++ rec_writes kk) by now rewrite <- app_assoc.
    rewrite (rec_append path log recs kk (base path (hdr0 path) (dir0 path))).
    + unfold base. rewrite dirb_0. now rewrite <- !app_assoc.
    + apply LL.
    + exact L0.
    + apply KG.
    + reflexivity.
    + symmetry. now apply key_good_hdr.
  - intros d. unfold base. now rewrite <- !app_assoc.
  - replace (before ++ [save]) with (log ++ rec_writes kk ++ [save]) by now rewrite <- !app_assoc.
    rewrite (disk_saved path keys recs log sbuf P LL HE). unfold base. now rewrite <- !app_assoc.
Qed.

Lemma torn_save n : let d := disk_of (before ++ [(100 + nbname path, firstn n (dirb d1))]) in
  (zeros (firstn (n - 26) (field 26 4 (dirb d1))) -> refused d) /\
  (zeros (skipn (n - 26) (field 26 4 (dirb d1))) -> whole d ts).
Proof.
  cbv zeta. pose proof e_sizes as (Z0 & Z1 & Z2 & Z3 & Z4 & Z5 & _).
  destruct disk_before as (pre & post & LP & DB & EB & DS).
  assert (zlen (disk_of (before ++ [save])) < 2 ^ 63) as Q.
  { clear DS EB DB LP. destruct CS as [S LL G NK HE SO SC SR SB S4 _].
    replace (before ++ [save]) with (log ++ rec_writes kk ++ [save]) by now rewrite <- !app_assoc.
    rewrite (disk_saved path keys recs log sbuf P LL HE), tail_snoc, !zlen_app.
    destruct (closed_sizes path keys recs sbuf P HE) as (B0 & B1 & B2 & B3 & B4 & KG & SG & FG & LK & LS & LF).
    destruct (b_len path keys recs sbuf P HE) as (L0 & L1 & _). rewrite L1, LK, zlen_repeat. unfold rsize in *. lia. }
  assert (is_i32 e /\ is_i32 (k_nbytes kk)) as [I1 I2] by (split; red; lia).
  destruct (dir_torn path e (k_nbytes kk) n P I1 I2) as (FE & T1 & T2).
  change (dirb d1) with (dirb (dir_at path e (k_nbytes kk))) in *. rewrite FE.
  rewrite disk_of_snoc, DB. cbn [fst snd]. rewrite torn_dwrite; [|exact LP|].
  2: { destruct (dir_at_split path P) as (A & B & C & LA & LB & LC & E). rewrite (E 0 0), (E e) by (assumption || (red; lia)).
       rewrite !zlen_app, !zlen_be. reflexivity. }
  split.
  - intros Z. destruct (T1 Z) as (nk' & HK & ->). rewrite EB. destruct (open_torn_dir path nk' post P HK) as (er & ER).
    intros fo. rewrite ER. discriminate.
  - intros Z. rewrite (T2 ltac:(lia) Z), <- DS. rewrite <- (app_nil_r (before ++ [_])). apply window_whole; [constructor|].
    rewrite app_nil_r. exact Q.
Qed.

Lemma disk_mid : disk_of (before ++ save :: mid) = hdrb (hdr0 path) ++ Zt.
Proof.
  destruct CS as [S LL G NK HE SO SC SR SB S4 _].
  destruct (closed_sizes path keys recs sbuf P HE) as (B0 & B1 & B2 & B3 & B4 & KG & SG & FG & LK & LS & LF).
  destruct (b_len path keys recs sbuf P HE) as (L0 & L1 & _).
  pose proof (disk_saved path keys recs log sbuf P LL HE) as DS.
  replace (before ++ save :: mid) with (((log ++ rec_writes kk ++ [save]) ++ rec_writes ks) ++ rec_writes kf) by now rewrite <- !app_assoc.
  rewrite (rec_append path _ ((recs ++ [rec kk]) ++ [rec ks]) kf (base path (hdr0 path) d1)).
  - unfold Zt, base. rewrite <- !app_assoc. reflexivity.
  - rewrite (rec_append path _ (recs ++ [rec kk]) ks (base path (hdr0 path) d1)); [reflexivity|exact DS|exact L1|apply SG| |symmetry; now apply key_good_hdr].
    rewrite rsize_snoc, LK. change (k_seek ks) with e1. lia.
  - exact L1.
  - apply FG.
  - rewrite !rsize_snoc, LK, LS. change (k_seek kf) with e2. lia.
  - symmetry. now apply key_good_hdr.
Qed.

Lemma torn_blank n : (0 < n)%nat -> open_file (disk_of ((before ++ save :: mid) ++ [(0, firstn n (repeat 0 100))])) = Panic.
Proof.
  intros Hn. destruct (hdr0_ok path P) as (HO & HB). pose proof (hdr_small_len _ HO HB) as LH.
  rewrite disk_of_snoc, disk_mid. cbn [fst snd]. unfold Zt.
  replace (hdrb (hdr0 path) ++ repeat 0 37 ++ (name_rec path ++ dirb d1) ++ tail (recs ++ [rec kk; rec ks; rec kf])) with
    ([] ++ (hdrb (hdr0 path) ++ repeat 0 37) ++ (name_rec path ++ dirb d1) ++ tail (recs ++ [rec kk; rec ks; rec kf])) by now rewrite <- !app_assoc.
  rewrite torn_dwrite; [|reflexivity|rewrite zlen_app, LH, !zlen_repeat; reflexivity]. cbn [app].
  apply foreign_panics.
  - rewrite zlen_app, mix_zlen by (rewrite zlen_app, LH, !zlen_repeat; reflexivity). rewrite zlen_app, LH, zlen_repeat.
    match goal with |- 76 <= 63 + Z.of_nat 37 + ?z => pose proof (zlen_nonneg ((name_rec path ++ dirb d1) ++ tail (recs ++ [rec kk; rec ks; rec kf]))); lia end.
  - destruct n as [|n]; [lia|]. cbn [repeat]. unfold mix. cbn [firstn app]. intros X. apply (f_equal (hd 1)) in X. cbn [hd] in X. vm_compute in X. discriminate X.
Qed.

Lemma torn_disk n : disk_of (((before ++ save :: mid) ++ [(0, repeat 0 100)]) ++ [(0, firstn n (hdrb h1))]) = Dn n.
Proof.
  destruct (hdr0_ok path P) as (HO & HB). pose proof (hdr_small_len _ HO HB) as LH. pose proof h1_facts as (_ & _ & LH1).
  rewrite !disk_of_snoc, disk_mid. cbn [fst snd]. unfold Zt at 1.
  replace (hdrb (hdr0 path) ++ repeat 0 37 ++ (name_rec path ++ dirb d1) ++ tail (recs ++ [rec kk; rec ks; rec kf])) with
    ([] ++ (hdrb (hdr0 path) ++ repeat 0 37) ++ (name_rec path ++ dirb d1) ++ tail (recs ++ [rec kk; rec ks; rec kf])) by now rewrite <- !app_assoc.
  rewrite dwrite_mid; [|reflexivity|rewrite zlen_app, LH, !zlen_repeat; reflexivity].
  change (repeat 0 100) with (repeat 0 63 ++ repeat 0 37). rewrite <- (app_assoc (repeat 0 63)).
  rewrite (torn_dwrite [] (repeat 0 63)); [|reflexivity|rewrite LH1; reflexivity]. reflexivity.
Qed.

Lemma header_fields : field 37 4 (hdrb h1) = be 4 e1 /\ field 41 4 (hdrb h1) = be 4 (k_nbytes ks).
Proof.
  pose proof e_sizes as (Z0 & Z1 & Z2 & Z3 & Z4 & Z5 & _). pose proof h1_facts as (HO & HB & _).
  rewrite (hdrb_split h1 HO HB). change (fh_seekinfo h1) with e1. change (fh_nbinfo h1) with (k_nbytes ks). rewrite (to_i32_id e1) by (red; lia).
  match goal with |- field 37 4 (?a ++ ?b ++ ?c ++ ?d ++ ?g ++ ?h ++ ?i ++ ?j ++ ?k ++ ?l ++ ?m) = _ /\ _ =>
    replace (a ++ b ++ c ++ d ++ g ++ h ++ i ++ j ++ k ++ l ++ m) with ((a ++ b ++ c ++ d ++ g ++ h ++ i ++ j ++ k ++ l) ++ m) by (now rewrite <- !app_assoc);
    assert (zlen (a ++ b ++ c ++ d ++ g ++ h ++ i ++ j ++ k ++ l) = 37) as LA by (rewrite !zlen_app, !zlen_be; reflexivity);
    revert LA; generalize (a ++ b ++ c ++ d ++ g ++ h ++ i ++ j ++ k ++ l) end.
  intros A LA. split.
  - apply field_at; [exact LA|apply zlen_be].
  - rewrite app_assoc. apply field_at; [rewrite zlen_app, LA, zlen_be; reflexivity|apply zlen_be].
Qed.

Lemma torn_header n : let d := disk_of (((before ++ save :: mid) ++ [(0, repeat 0 100)]) ++ [(0, firstn n (hdrb h1))]) in
  ((n <= 30)%nat -> refused d) /\ (n = 31%nat -> nbname path < 256 -> refused d) /\
  ((32 <= n)%nat -> zeros (firstn (n - 37) (field 37 4 (hdrb h1))) -> exists fo, open_file d = Ok fo /\ shows_tables fo ts /\ f_sinfos fo = []) /\
  ((32 <= n)%nat -> ~ zeros (firstn (n - 37) (field 37 4 (hdrb h1))) -> zeros (firstn (n - 41) (field 41 4 (hdrb h1))) -> refused d) /\
  (~ zeros (firstn (n - 41) (field 41 4 (hdrb h1))) -> whole d ts).
Proof.
  cbv zeta. rewrite torn_disk. destruct header_fields as (-> & ->). pose proof e_sizes as (Z0 & Z1 & Z2 & Z3 & Z4 & Z5 & _).
  rewrite <- (t4_zero (n - 37) e1) by lia. rewrite <- (t4_zero (n - 41) (k_nbytes ks)) by lia.
  split; [intros; apply torn_early; now left|]. split; [intros; apply torn_early; now right|].
  split; [intros Hn; apply (torn_late n Hn)|]. split; [intros Hn; apply (torn_late n Hn)|].
  intros N. apply torn_late; [|exact N]. destruct (le_lt_dec 32 n) as [H|H]; [exact H|]. contradiction N. replace (n - 41)%nat with 0%nat by lia. apply t4_0.
Qed.
End Torn.

(** ** Finished sessions *)
Lemma finished_session path ts es f : finished path ts es f ->
  path_ok path /\ Forall table_ok ts /\ (short_path path <-> nbname path <= 1000) /\ directory_at path = 100 + nbname path /\
  exists keys sis recs rest sis' sbuf, closed_session real_db path (map calls ts) es keys sis recs (create_log path ++ rest) sis' sbuf f /\
    Forall (fun w => E0 path <= fst w) rest /\
    writes_of f = (create_log path ++ rest) ++ close_log path keys sbuf (E0 path + rsize recs).
Proof.
  intros (U & T & N & S & D). destruct (user_path_ok path U) as [P SP].
  split; [exact P|]. split; [exact T|]. split; [exact SP|]. split; [now apply directory_at_ok|].
  destruct (session_closed real_db path (map calls ts) f es real_db_ok P) as (keys & sis & recs & log & sis' & sbuf & C).
  { apply Forall_map. eapply Forall_impl; [|exact T]. apply table_tprog. }
  { rewrite map_map. exact N. }
  { exact S. }
  { exact D. }
  pose proof (cl_log _ _ _ _ _ _ _ _ _ _ _ C) as [(rest & -> & R) _]. pose proof (rlog_ge _ _ _ R) as [_ F].
  exists keys, sis, recs, rest, sis', sbuf. split; [exact C|]. split; [exact F|].
  rewrite (cl_file _ _ _ _ _ _ _ _ _ _ _ C). reflexivity.
Qed.

Lemma split_once (A B C D : list (Z * bytes)) p a b : ~ In p (map fst A) -> ~ In p (map fst B) ->
  A ++ (p, a) :: B = C ++ (p, b) :: D -> A = C /\ a = b /\ B = D.
Proof.
  intros NA NB' E. apply app_split in E as [(x & -> & E)|(x & -> & E)].
  - destruct x as [|w x]; cbn [app] in E.
    + rewrite app_nil_r. injection E as -> ->. auto.
    + injection E as <- E. exfalso. apply NB'. rewrite E, map_app. apply in_or_app. right. now left.
  - destruct x as [|w x]; cbn [app] in E.
    + rewrite app_nil_r. injection E as -> ->. auto.
    + injection E as <- E. exfalso. apply NA. rewrite map_app. apply in_or_app. right. now left.
Qed.

Lemma far_apart p z (l : list (Z * bytes)) : Forall (fun w => z <= fst w) l -> p < z -> ~ In p (map fst l).
Proof. intros F H I. apply in_map_iff in I as (w & E & I). rewrite Forall_forall in F. specialize (F w I). lia. Qed.

Lemma short_name path : path_ok path -> zlen path < 110 -> nbname path < 256.
Proof.
  intros P H. unfold nbname. rewrite path_keylen_eq. change (tstring_sizeof []) with 1. unfold tstring_sizeof. pose proof (zlen_nonneg path).
  rewrite to_i32_id by (red; lia). cbv zeta. destruct (254 <? zlen path) eqn:E; lia.
Qed.

Lemma crash_none d : crash [] d -> d = [].
Proof.
  intros C. remember [] as l eqn:E in C. destruct C as [dn r|dn p a b r].
  - now apply app_eq_nil in E as [-> _].
  - now apply app_eq_nil in E as [_ E].
Qed.

Section Whole.
Variables (path : bytes) (ts : list table) (es : list (list (nat * event))) (f : file).
Hypothesis (F : finished path ts es f) (Sh : short_path path).

Lemma whole_save done b more n : writes_of f = done ++ (directory_at path, b) :: more ->
  let d := disk_of (done ++ [(directory_at path, firstn n b)]) in
  (zeros (firstn (n - 26) (field 26 4 b)) -> refused d) /\ (zeros (skipn (n - 26) (field 26 4 b)) -> whole d ts).
Proof.
  destruct (finished_session _ _ _ _ F) as (P & W & SP & DA & keys & sis & recs & rest & sis' & sbuf & CS & FR & WR).
  apply SP in Sh. rewrite WR, DA, all_split. intros E.
  pose proof (e_sizes path ts es f keys sis recs rest sis' sbuf P CS) as (Z0 & Z1 & Z2 & Z3 & Z4 & Z5 & _).
  pose proof (dir_pos path P) as DP.
  pose proof (cl_end _ _ _ _ _ _ _ _ _ _ _ CS) as HE.
  apply split_once in E as (<- & <- & _).
  - exact (torn_save path ts es f keys sis recs rest sis' sbuf P W Sh CS n).
  - rewrite map_app. intros I. apply in_app_or in I as [I|I].
    + unfold create_log in I. cbn [map fst In] in I. lia.
    + apply (far_apart _ _ _ (before_ge path keys sbuf recs rest P FR)) in I; [assumption|lia].
  - rewrite map_app. intros I. apply in_app_or in I as [I|I].
    + apply (far_apart _ _ _ (after_ge path keys sbuf recs P HE)) in I; [assumption|lia].
    + cbn [map fst In] in I. lia.
Qed.

Lemma last_two (l l' : list (Z * bytes)) a b c d : l ++ [a; b] = l' ++ [c; d] -> l = l' /\ a = c /\ b = d.
Proof.
  intros E. change [a; b] with ([a] ++ [b]) in E. change [c; d] with ([c] ++ [d]) in E. rewrite !app_assoc in E.
  apply app_inj_tail in E as [E ->]. apply app_inj_tail in E as [-> ->]. auto.
Qed.

Lemma whole_blank done z w n : writes_of f = done ++ [(0, z); w] -> (0 < n)%nat -> open_file (disk_of (done ++ [(0, firstn n z)])) = Panic.
Proof.
  destruct (finished_session _ _ _ _ F) as (P & W & SP & DA & keys & sis & recs & rest & sis' & sbuf & CS & FR & WR).
  rewrite WR, all_split, app_comm_cons, app_assoc. intros E Hn. apply last_two in E as (<- & E & _). injection E as <-.
  exact (torn_blank path ts es f keys sis recs rest sis' sbuf P CS n Hn).
Qed.

Lemma whole_header done h n : writes_of f = done ++ [(0, h)] ->
  let d := disk_of (done ++ [(0, firstn n h)]) in
  ((n <= 30)%nat -> refused d) /\ (n = 31%nat -> zlen path < 110 -> refused d) /\
  ((32 <= n)%nat -> zeros (firstn (n - 37) (field 37 4 h)) -> exists fo, open_file d = Ok fo /\ shows_tables fo ts /\ f_sinfos fo = []) /\
  ((32 <= n)%nat -> ~ zeros (firstn (n - 37) (field 37 4 h)) -> zeros (firstn (n - 41) (field 41 4 h)) -> refused d) /\
  (~ zeros (firstn (n - 41) (field 41 4 h)) -> whole d ts).
Proof.
  destruct (finished_session _ _ _ _ F) as (P & W & SP & DA & keys & sis & recs & rest & sis' & sbuf & CS & FR & WR).
  apply SP in Sh. rewrite WR, all_split, app_comm_cons, app_assoc.
  change [(0, repeat 0 100); (0, hdrb (hdr1 path keys sbuf (E0 path + rsize recs)))] with
    ([(0, repeat 0 100)] ++ [(0, hdrb (hdr1 path keys sbuf (E0 path + rsize recs)))]). rewrite app_assoc.
  intros E. apply app_inj_tail in E as (<- & E). injection E as <-.
  destruct (torn_header path ts es f keys sis recs rest sis' sbuf P W Sh CS n) as (T1 & T2 & T3 & T4 & T5).
  split; [exact T1|]. split; [intros Hn Hp; apply T2; [exact Hn|now apply short_name]|]. auto.
Qed.

Lemma firstn_prefix (a c : bytes) : a = firstn (length a) (a ++ c).
Proof. rewrite firstn_app, Nat.sub_diag, firstn_all. cbn [firstn]. now rewrite app_nil_r. Qed.

Lemma header_cases done h n : writes_of f = done ++ [(0, h)] -> (n = 31%nat -> zlen path < 110) ->
  refused (disk_of (done ++ [(0, firstn n h)])) \/ whole (disk_of (done ++ [(0, firstn n h)])) ts.
Proof.
  intros E H. destruct (whole_header done h n E) as (T1 & T2 & T3 & T4 & T5).
  destruct (zeros_dec (firstn (n - 41) (field 41 4 h))) as [Z2|Z2]; [|right; auto].
  destruct (le_lt_dec n 30) as [H30|H30]; [left; auto|]. destruct (Nat.eq_dec n 31) as [H31|H31]; [left; auto|].
  destruct (zeros_dec (firstn (n - 37) (field 37 4 h))) as [Z1|Z1].
  - right. destruct T3 as (fo & O & S & _); [lia|exact Z1|]. exists fo. auto.
  - left. apply T4; [lia|assumption|assumption].
Qed.

Lemma every_crash done : crash (writes_of f) done -> ~ position_torn path (writes_of f) done -> ~ name_length_torn path (writes_of f) done ->
  refused (disk_of done) \/ whole (disk_of done) ts.
Proof.
  intros C NP NN.
  destruct (finished_session _ _ _ _ F) as (P & W & SP & DA & keys & sis & recs & rest & sis' & sbuf & CS & FR & WR).
  pose proof (cl_end _ _ _ _ _ _ _ _ _ _ _ CS) as HE. pose proof (before_ge path keys sbuf recs rest P FR) as FB.
  pose proof (after_ge path keys sbuf recs P HE) as FA.
  destruct (finished_closed _ _ _ _ F) as (keys' & sbuf' & recs' & rest' & CL). pose proof (fact_end _ _ _ _ _ _ _ _ CL) as (FE1 & FE2).
  pose proof (all_pos _ _ _ _ _ _ _ _ CL) as AP.
  assert (zlen (disk_of done) < 2 ^ 63) as LD.
  { rewrite (cd_writes _ _ _ _ _ _ _ _ CL) in C. pose proof (crash_len _ _ AP C) as LB.
    rewrite <- (cd_disk _ _ _ _ _ _ _ _ CL) in LB. lia. }
  clear CL AP FE1 FE2. assert (NB := proj1 SP Sh).
  pose proof (window_whole path ts es f keys sis recs rest sis' sbuf P W NB CS) as WW.
  pose proof (whole_header) as WH. pose proof whole_save as WS. pose proof whole_blank as WB. pose proof header_cases as HC.
  pose proof WR as WR'. rewrite all_split in WR'. rewrite DA in WS.
  assert (A : forall d, crash (create_log path ++ rest ++ rec_writes (kkey path keys (E0 path + rsize recs))) d -> refused (disk_of d))
    by (intros d; apply crash_refused; assumption).
  revert WW A FB FA WR'. generalize (rest ++ rec_writes (kkey path keys (E0 path + rsize recs))).
  generalize (rec_writes (skey sbuf (E0 path + rsize recs + k_nbytes (kkey path keys (E0 path + rsize recs)))) ++
    rec_writes (fkey path (E0 path + rsize recs + k_nbytes (kkey path keys (E0 path + rsize recs)) +
      k_nbytes (skey sbuf (E0 path + rsize recs + k_nbytes (kkey path keys (E0 path + rsize recs))))))).
  generalize (E0 path + rsize recs + k_nbytes (kkey path keys (E0 path + rsize recs))) (dirb (dir1 path keys (E0 path + rsize recs)))
    (hdrb (hdr1 path keys sbuf (E0 path + rsize recs))). clear WR CS HE.
  intros e1 db hb mid B WW A FB FA WR.
  pose proof C as C'. rewrite WR in C'. apply crash_app in C' as [C'|(d & -> & C')]; [left; now apply A|].
  apply crash_cons in C' as [->|[(a & c & E & ->)|(d' & -> & C')]].
  - rewrite app_nil_r. left. apply A, crash_all.
  - rewrite (firstn_prefix a c), <- E. destruct (WS _ _ _ (length a) WR) as (T1 & T2).
    destruct (zeros_dec (firstn (length a - 26) (field 26 4 db))) as [Z1|Z1]; [left; auto|].
    destruct (zeros_dec (skipn (length a - 26) (field 26 4 db))) as [Z2|Z2]; [right; auto|].
    contradiction NP. exists (create_log path ++ B), db, (length a). rewrite DA. split; [now rewrite E, <- firstn_prefix|].
    split; [|auto]. rewrite WR. apply in_or_app. right. now left.
  - replace (((create_log path ++ B) ++ (100 + nbname path, db) :: d')) with (((create_log path ++ B) ++ [(100 + nbname path, db)]) ++ d') in * by now rewrite <- app_assoc.
    apply crash_app in C' as [C'|(l & -> & C')].
    + right. apply WW; [|exact LD]. now apply (crash_Forall (fun z => e1 <= z)) in C'.
    + apply crash_cons in C' as [->|[(a & c & E & ->)|(d & -> & C')]].
      * rewrite app_nil_r in *. right. now apply WW.
      * destruct a as [|x a].
        -- right. rewrite app_assoc, disk_of_snoc in *. cbn [fst snd] in *. change (dwrite ?d 0 []) with d in *. now apply WW.
        -- left. rewrite (firstn_prefix (x :: a) c), <- E, app_assoc. intros fo. rewrite (WB _ _ (0, hb)); [discriminate| |cbn [length]; lia].
           rewrite WR. now rewrite <- !app_assoc.
      * set (pre := (create_log path ++ B) ++ (100 + nbname path, db) :: mid ++ [(0, repeat 0 100)]).
        assert (writes_of f = pre ++ [(0, hb)]) as WP by (rewrite WR; unfold pre; rewrite <- !app_assoc; cbn [app]; now rewrite <- !app_assoc).
        assert (forall x, ((create_log path ++ B) ++ [(100 + nbname path, db)]) ++ mid ++ (0, repeat 0 100) :: x = pre ++ x) as EP
          by (intros x; unfold pre; rewrite <- !app_assoc; cbn [app]; now rewrite <- !app_assoc).
        rewrite EP in *. clear EP.
        apply crash_cons in C' as [->|[(a & c & E & ->)|(d' & -> & C')]].
        -- left. rewrite app_nil_r. intros fo. unfold pre. change [(0, repeat 0 100)] with [(0, firstn 100 (repeat 0 100))].
           rewrite app_comm_cons, app_assoc. rewrite (WB _ _ (0, hb)); [discriminate| |lia]. rewrite WR. now rewrite <- !app_assoc.
        -- rewrite (firstn_prefix a c), <- E. apply HC; [exact WP|]. intros L31.
           destruct (Z_lt_ge_dec (zlen path) 110) as [H|H]; [exact H|]. contradiction NN. split; [lia|].
           exists pre, hb. split; [exact WP|]. rewrite <- L31, E, <- firstn_prefix. reflexivity.
        -- apply crash_none in C' as ->.
           rewrite <- (firstn_all hb). apply HC; [exact WP|]. intros L31.
           destruct (Z_lt_ge_dec (zlen path) 110) as [H|H]; [exact H|]. contradiction NN. split; [lia|].
           exists pre, hb. split; [exact WP|]. now rewrite <- L31, firstn_all.
Qed.
End Whole.
