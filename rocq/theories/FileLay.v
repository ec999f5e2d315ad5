(** Layout of the files the library writes. *)
From Verif Require Export File.

(** ** The disk *)

(** [s] lies at position [p] of [d]. *)
Definition seg (d : bytes) (p : Z) (s : bytes) : Prop := exists a c, d = a ++ s ++ c /\ zlen a = p.

Lemma seg_nonneg d p s : seg d p s -> 0 <= p.
Proof. intros (a & c & _ & <-). apply zlen_nonneg. Qed.
Lemma seg_bound d p s : seg d p s -> p + zlen s <= zlen d.
Proof. intros (a & c & -> & <-). rewrite !zlen_app. pose proof (zlen_nonneg c). lia. Qed.
Lemma seg_app_l d p s t : seg d p (s ++ t) -> seg d p s.
Proof. intros (a & c & -> & <-). exists a, (t ++ c). now rewrite <- app_assoc. Qed.
Lemma seg_app_r d p s t : seg d p (s ++ t) -> seg d (p + zlen s) t.
Proof. intros (a & c & -> & <-). exists (a ++ s), c. now rewrite zlen_app, <- !app_assoc. Qed.
Lemma seg_here a s c : seg (a ++ s ++ c) (zlen a) s.
Proof. now exists a, c. Qed.
Lemma seg_app_d d p s x : seg d p s -> seg (d ++ x) p s.
Proof. intros (a & c & -> & <-). exists a, (c ++ x). now rewrite <- !app_assoc. Qed.

Lemma app_inj_len {A} (a b c d : list A) : a ++ b = c ++ d -> zlen a = zlen c -> a = c /\ b = d.
Proof.
  revert c; induction a as [|x a IH]; intros [|y c] H L; rewrite ?zlen_nil, ?zlen_cons in L.
  - now split.
  - pose proof (zlen_nonneg c); lia.
  - pose proof (zlen_nonneg a); lia.
  - cbn in H. injection H as -> H. destruct (IH c H) as [-> ->]; [lia|]. now split.
Qed.

Lemma seg_join d p s t : seg d p s -> seg d (p + zlen s) t -> seg d p (s ++ t).
Proof.
  intros (a & c & -> & <-) (b & e & H & L). exists a, e. split; [|reflexivity].
  rewrite app_assoc in H. apply app_inj_len in H as [<- ->]; [now rewrite <- !app_assoc|].
  rewrite zlen_app; lia.
Qed.

Lemma to_u64_small z : 0 <= z < 2 ^ 64 -> to_u64 z = z.
Proof. intros. unfold to_u64, wrap_u. apply Z.mod_small. exact H. Qed.

Lemma read_at_ok d p n s : seg d p s -> zlen s = n -> zlen d < 2 ^ 63 -> read_at d p n = Ok s.
Proof.
  intros S <- Hd. pose proof (seg_bound _ _ _ S). pose proof (seg_nonneg _ _ _ S).
  pose proof (zlen_nonneg s). unfold read_at.
  rewrite !to_u64_small by lia. cbv zeta.
  destruct (Z.leb_spec (2 ^ 63) p); [lia|]. destruct (Z.leb_spec (2 ^ 63) (zlen s)); [lia|].
  replace ((zlen s =? 0) || (p + zlen s <=? zlen d)) with true by (symmetry; lia).
  destruct S as (a & c & -> & <-). now rewrite zsub_mid.
Qed.

Lemma firstn_zlen {A} (a b : list A) n : Z.to_nat (zlen a) = n -> firstn n (a ++ b) = a.
Proof. intros <-. rewrite zlen_def, Nat2Z.id. rewrite firstn_app, Nat.sub_diag, firstn_all. now rewrite app_nil_r. Qed.
Lemma skipn_zlen {A} (a b : list A) n : Z.to_nat (zlen a) = n -> skipn n (a ++ b) = b.
Proof. intros <-. rewrite zlen_def, Nat2Z.id. rewrite skipn_app, Nat.sub_diag, skipn_all. reflexivity. Qed.

Lemma dwrite_mid a m c b p : zlen a = p -> zlen m = zlen b -> dwrite (a ++ m ++ c) p b = a ++ b ++ c.
Proof.
  intros <- H. unfold dwrite. destruct b as [|x b'] eqn:E.
  - rewrite (@zlen_nil Z) in H. apply zlen_0_nil in H. now subst m.
  - rewrite <- E in *. clear E x b'.
    replace (Z.to_nat (zlen a - zlen (a ++ m ++ c))) with 0%nat
      by (rewrite !zlen_app; pose proof (zlen_nonneg m); pose proof (zlen_nonneg c); lia).
    cbn [repeat]. rewrite app_nil_r. rewrite (firstn_zlen a (m ++ c)) by reflexivity.
    do 2 f_equal. rewrite (app_assoc a m c). apply skipn_zlen.
    rewrite zlen_app, H, !zlen_def. lia.
Qed.

Lemma dwrite_end d n b : b <> [] -> dwrite d (zlen d + Z.of_nat n) b = d ++ repeat 0 n ++ b.
Proof.
  intros Hb. unfold dwrite. destruct b as [|x b'] eqn:E; [contradiction|]. rewrite <- E in *. clear E.
  replace (Z.to_nat (zlen d + Z.of_nat n - zlen d)) with n by lia.
  rewrite <- (app_nil_r (d ++ repeat 0 n)) at 1.
  rewrite firstn_zlen by (rewrite zlen_app, zlen_repeat; lia).
  rewrite skipn_all2; [now rewrite app_nil_r, <- app_assoc|].
  rewrite app_length, repeat_length. rewrite zlen_def. lia.
Qed.

Lemma dwrite_append d b p : p = zlen d -> dwrite d p b = d ++ b.
Proof.
  intros ->. destruct b as [|x b]; [now rewrite app_nil_r|].
  replace (zlen d) with (zlen d + Z.of_nat 0) by lia. rewrite dwrite_end by discriminate. reflexivity.
Qed.

Lemma dwrite_len d p b : zlen d <= zlen (dwrite d p b).
Proof.
  unfold dwrite. destruct b as [|x b'] eqn:E; [lia|]. rewrite <- E. clear E.
  set (d' := d ++ _). rewrite !zlen_app. rewrite (zlen_def (firstn _ _)), (zlen_def (skipn _ _)).
  rewrite firstn_length, skipn_length.
  assert (zlen d <= zlen d') by (unfold d'; rewrite zlen_app; pose proof (zlen_nonneg (repeat 0 (Z.to_nat (p - zlen d)))); lia).
  rewrite (zlen_def d') in *. rewrite (zlen_def b). lia.
Qed.
Lemma dwrite_reach d p b : 0 <= p -> b <> [] -> p + zlen b <= zlen (dwrite d p b).
Proof.
  intros Hp Hb. unfold dwrite. destruct b as [|x b'] eqn:E; [contradiction|]. rewrite <- E. clear E.
  set (d' := d ++ _). rewrite !zlen_app. rewrite (zlen_def (firstn _ _)), (zlen_def (skipn _ _)).
  rewrite firstn_length, skipn_length.
  assert (p <= zlen d') by (unfold d'; rewrite zlen_app, zlen_repeat; lia).
  rewrite (zlen_def d') in *. rewrite (zlen_def b). lia.
Qed.

(** A write outside a segment leaves it alone. *)
Lemma seg_dwrite d p s q b : seg d p s -> 0 <= q -> q + zlen b <= p \/ p + zlen s <= q -> seg (dwrite d q b) p s.
Proof.
  intros (a & c & -> & <-) Hq [H|H].
  - (* before *)
    pose proof (zlen_nonneg b).
    assert (exists a1 a2 a3, a = a1 ++ a2 ++ a3 /\ zlen a1 = q /\ zlen a2 = zlen b) as (a1 & a2 & a3 & -> & L1 & L2).
    { exists (firstn (Z.to_nat q) a), (firstn (length b) (skipn (Z.to_nat q) a)),
        (skipn (length b) (skipn (Z.to_nat q) a)).
      rewrite !firstn_skipn. split; [reflexivity|].
      rewrite !zlen_def in *. rewrite !firstn_length, skipn_length. split; lia. }
    rewrite <- !app_assoc. rewrite dwrite_mid by (auto; lia).
    exists (a1 ++ b ++ a3), c. rewrite <- !app_assoc. split; [reflexivity|].
    rewrite !zlen_app. lia.
  - (* after *)
    unfold dwrite. destruct b as [|x b'] eqn:E; [now exists a, c|]. rewrite <- E in *. clear E x b'.
    set (z := repeat _ _). rewrite <- !app_assoc.
    set (c' := c ++ z).
    replace (Z.to_nat q) with (Z.to_nat (zlen (a ++ s)) + (Z.to_nat q - Z.to_nat (zlen (a ++ s))))%nat at 1
      by (rewrite zlen_app; pose proof (zlen_nonneg a); pose proof (zlen_nonneg s); lia).
    rewrite (app_assoc a s c'). rewrite zlen_def, Nat2Z.id, firstn_app_2.
    eexists a, _. split; [|reflexivity]. rewrite <- !app_assoc. reflexivity.
Qed.

Lemma seg_dwrite_same d q b : 0 <= q <= zlen d -> seg (dwrite d q b) q b.
Proof.
  intros Hq. destruct (Z.leb_spec (q + zlen b) (zlen d)) as [H|H].
  - pose proof (zlen_nonneg b).
    assert (exists a m c, d = a ++ m ++ c /\ zlen a = q /\ zlen m = zlen b) as (a & m & c & -> & L1 & L2).
    { exists (firstn (Z.to_nat q) d), (firstn (length b) (skipn (Z.to_nat q) d)),
        (skipn (length b) (skipn (Z.to_nat q) d)).
      rewrite !firstn_skipn. split; [reflexivity|].
      rewrite !zlen_def in *. rewrite !firstn_length, skipn_length. split; lia. }
    rewrite dwrite_mid by auto. now exists a, c.
  - unfold dwrite. destruct b as [|x b'] eqn:E; [rewrite (@zlen_nil Z) in H; lia|]. rewrite <- E in *. clear E x b'.
    eexists _, _. split; [reflexivity|]. rewrite zlen_def, firstn_length, app_length, repeat_length.
    rewrite zlen_def in *. lia.
Qed.

Lemma disk_of_snoc log w : disk_of (log ++ [w]) = dwrite (disk_of log) (fst w) (snd w).
Proof. unfold disk_of. rewrite fold_left_app. reflexivity. Qed.
Lemma disk_of_app log l2 : disk_of (log ++ l2) = fold_left (fun d w => dwrite d (fst w) (snd w)) l2 (disk_of log).
Proof. unfold disk_of. now rewrite fold_left_app. Qed.

Lemma fold_dwrite_len l d : zlen d <= zlen (fold_left (fun d w => dwrite d (fst w) (snd w)) l d).
Proof.
  revert d; induction l as [|w l IH]; intros d; cbn [fold_left]; [lia|].
  etransitivity; [|now apply IH]. apply dwrite_len.
Qed.
Lemma disk_of_len log l : zlen (disk_of log) <= zlen (disk_of (log ++ l)).
Proof. rewrite disk_of_app. apply fold_dwrite_len. Qed.
Lemma fold_dwrite_seg l d p s : Forall (fun w => 0 <= fst w /\ (fst w + zlen (snd w) <= p \/ p + zlen s <= fst w)) l ->
  seg d p s -> seg (fold_left (fun d w => dwrite d (fst w) (snd w)) l d) p s.
Proof.
  revert d; induction l as [|w l IH]; intros d H S; cbn [fold_left]; [exact S|].
  inversion H as [|? ? [H1 H2] H3]; subst. apply IH; [assumption|]. now apply seg_dwrite.
Qed.

(** ** Running writers and readers *)
Definition wbytes {A} (m : W A) : bytes := match wrun 0 m with Ok b => b | _ => [] end.

Lemma writes_wrun {A} (m : W A) w off : writes m w -> wrun off m = Ok w.
Proof. intros H. unfold wrun. destruct (H (w_new off)) as [x ->]. reflexivity. Qed.
Lemma writes_wbytes {A} (m : W A) w : writes m w -> wbytes m = w.
Proof. intros H. unfold wbytes. now rewrite (writes_wrun _ _ 0 H). Qed.
Lemma reads_rrun {A} (m : R A) w v off post : reads m w v -> rrun off m (w ++ post) = Ok v.
Proof.
  intros H. unfold rrun, r_new. specialize (H None [] post off []). rewrite (@zlen_nil Z) in H.
  cbn [app] in H. rewrite H. reflexivity.
Qed.
Lemma reads_rrun0 {A} (m : R A) w v off : reads m w v -> rrun off m w = Ok v.
Proof. intros H. rewrite <- (app_nil_r w). now apply reads_rrun. Qed.
Lemma rt_wbytes {A V} n (wm : W A) (rm : R V) v : rt n wm rm v ->
  zlen (wbytes wm) = n /\ writes wm (wbytes wm) /\ reads rm (wbytes wm) v.
Proof. intros (w & L & Hw & Hr). now rewrite (writes_wbytes _ _ Hw). Qed.

(** Key header bytes. *)
Definition khdr (k : key) : bytes := wbytes (key_marshal k).
Definition dirb (d : dirf) : bytes := wbytes (dir_marshal d).
Definition hdrb (h : fhdr) : bytes := wbytes (fhdr_marshal h).

Lemma khdr_ok k : key_ok k ->
  zlen (khdr k) = key_hdr_len k /\ (forall off, wrun off (key_marshal k) = Ok (khdr k)) /\ writes (key_marshal k) (khdr k) /\
  reads key_unmarshal (khdr k) (key_seen k).
Proof.
  intros H. destruct (rt_wbytes _ _ _ _ (key_rt k H)) as (L & Hw & Hr).
  repeat split; auto. intros off. now apply writes_wrun.
Qed.

(** ** Keys and records while the file is small *)

(** A writer not larger than 2 GB whose end is [e]. *)
Definition small (f : file) (e : Z) : Prop :=
  fh_end (f_hdr f) = e /\ (exists x, f_spans f = [mkSeg x kStartBigFile]) /\
  fh_comp (f_hdr f) = 1 /\ dir_big (f_dir f) = false /\ 100 <= e <= kStartBigFile.

Definition f_end (f : file) (e : Z) : file :=
  f_set_spans (f_set_hdr f (h_set_end (f_hdr f) e)) [mkSeg e kStartBigFile].

Lemma fbind_ok {A B} (m : FM A) (k : A -> FM B) f f' a : m f = (f', Ok a) -> fbind m k f = k a f'.
Proof. intros H. unfold fbind. now rewrite H. Qed.
Lemma fbind_inv {A B} (m : FM A) (k : A -> FM B) f f' b : fbind m k f = (f', Ok b) ->
  exists f1 a, m f = (f1, Ok a) /\ k a f1 = (f', Ok b).
Proof. unfold fbind. destruct (m f) as [f1 [a| | | |]]; intros H; try discriminate. eauto. Qed.

Lemma set_end_small f e pos : small f e -> set_end pos f = (f_end f pos, Ok tt).
Proof.
  intros (_ & (x & S) & _). unfold set_end, fbind, fmodify, fgets, f_end. cbn [f_spans f_set_hdr].
  rewrite S. cbn [rev app s_last]. reflexivity.
Qed.

Lemma small_end f e e' : small f e -> 100 <= e' <= kStartBigFile -> small (f_end f e') e'.
Proof.
  intros (E & (x & S) & C & D & B) B'. unfold small, f_end.
  cbn [f_hdr f_set_hdr f_set_spans h_set_end fh_end fh_comp f_spans f_dir]. eauto 8.
Qed.

Lemma file_big_small f e : small f e -> file_big f = false.
Proof. intros (E & _ & _ & _ & B). unfold file_big. lia. Qed.
Lemma f_keylen_small f e n t c : small f e -> f_keylen n t c f = key_len_for n t c false.
Proof. intros S. unfold f_keylen. rewrite (file_big_small f e S). destruct S as (_ & _ & _ & -> & _). reflexivity. Qed.

Lemma add_i32_ok a b : is_i32 (a + b) -> add_i32 a b = Ok (a + b).
Proof. intros H. unfold add_i32. red in H. replace ((_ <=? _) && (_ <? _)) with true by (symmetry; lia). reflexivity. Qed.

Lemma key_from_small f e kl name title class cycle buf :
  small f e -> 0 <= kl -> e + kl + zlen buf <= kStartBigFile ->
  key_from kl name title class cycle buf f =
  (f_end f (e + (kl + zlen buf)),
   Ok (mkKey 4 (kl + zlen buf) (zlen buf) now_ts kl cycle e (d_seekdir (f_dir f)) class name title buf)).
Proof.
  intros S Hk He. pose proof S as (E & (x & Sp) & C & D & B). pose proof (zlen_nonneg buf).
  unfold kStartBigFile in *.
  unfold key_from. rewrite to_i32_id by (red; lia). cbv zeta.
  rewrite add_i32_ok by (red; lia).
  unfold fbind at 1. unfold flift at 1.
  unfold fbind at 1, fgets at 1. unfold fbind at 1, fgets at 1.
  unfold fbind at 1, fgets at 1. unfold fbind at 1, fgets at 1.
  unfold fbind at 1, flift at 1. unfold compress. rewrite C. cbn [Z.eqb Pos.eqb].
  unfold fbind at 1, flift at 1. rewrite to_i32_id by (red; lia). rewrite add_i32_ok by (red; lia).
  unfold fbind. rewrite (set_end_small f e) by exact S. rewrite (file_big_small f e S), E.
  reflexivity.
Qed.

Lemma key_new_small f e name title class objlen :
  small f e -> 0 < objlen ->
  e + (key_len_for name title class false + objlen) <= kStartBigFile -> 0 <= key_len_for name title class false ->
  key_new name title class objlen f =
  (f_end f (e + (objlen + key_len_for name title class false)),
   Ok (mkKey 4 (objlen + key_len_for name title class false) objlen now_ts
         (key_len_for name title class false) 1 e (d_seekdir (f_dir f)) class name title [])).
Proof.
  intros S Ho He Hk. pose proof S as (E & (x & Sp) & C & D & B).
  unfold key_new. unfold fbind at 1, fgets at 1. rewrite (f_keylen_small f e) by exact S.
  set (kl := key_len_for _ _ _ _) in *.
  unfold kStartBigFile in *.
  unfold fbind at 1, flift at 1. rewrite add_i32_ok by (red; lia).
  unfold fbind at 1, fgets at 1. rewrite E.
  replace (0 <? objlen) with true by (symmetry; lia).
  unfold fbind at 1. rewrite (set_end_small f e) by exact S.
  assert (S' : small (f_end f (e + (objlen + kl))) (e + (objlen + kl))).
  { apply (small_end f e); [exact S|]. unfold kStartBigFile. lia. }
  unfold fbind, fgets, fret. rewrite (file_big_small _ _ S').
  reflexivity.
Qed.

Lemma key_write_ok k f log : f_io f = IOWrite log -> key_ok k ->
  key_write k f = (f_set_io f (IOWrite (log ++ [(k_seek k, khdr k); (k_seek k + k_keylen k, k_buffer k)])), Ok tt).
Proof.
  intros L K. destruct (khdr_ok k K) as (_ & Hw & _).
  unfold key_write, fbind, fwriter, flift. rewrite L, Hw. unfold fwrite. rewrite L. cbn [f_io f_set_io].
  rewrite <- app_assoc. reflexivity.
Qed.

(** ** A freshly created file *)

Definition path_keylen (path : bytes) : Z := key_len_for path [] (bs "TFile") false.
(** Bytes of the name record: key header, path, empty title. *)
Definition nbname (path : bytes) : Z := path_keylen path + (tstring_sizeof path + tstring_sizeof []).
(** Where the first object goes. *)
Definition E0 (path : bytes) : Z := 100 + nbname path + 60.

Definition path_ok (path : bytes) : Prop := str_ok path /\ path_keylen path < 32700.

Definition tkey (path : bytes) : key :=
  let objlen := tstring_sizeof path + tstring_sizeof [] + 60 in
  mkKey 4 (objlen + path_keylen path) objlen now_ts (path_keylen path) 1 100 0 (bs "TFile") path [] [].
Definition hdr0 (path : bytes) : fhdr :=
  mkHdr 63002 100 (E0 path) 0 0 1 (nbname path) 4 1 0 0 (repeat 0 16).
Definition dir0 (path : bytes) : dirf :=
  mkDir 5 now_ts now_ts 0 (nbname path) 100 0 0 (repeat 0 16) [] path [] [].

Definition name_rec (path : bytes) : bytes := khdr (tkey path) ++ str_bytes path ++ str_bytes [].

Definition create_log (path : bytes) : list (Z * bytes) :=
  [(0, repeat 0 100); (0, hdrb (hdr0 path)); (100, khdr (tkey path));
   (100 + path_keylen path, str_bytes path ++ str_bytes [] ++ dirb (dir0 path))].

Definition file0 (path : bytes) : file :=
  mkFile (IOWrite (create_log path)) (hdr0 path) (dir0 path) [mkSeg (E0 path) kStartBigFile] [] path.

Lemma tstring_bound s : str_ok s -> zlen s < tstring_sizeof s <= zlen s + 5.
Proof.
  intros [H _]. pose proof (zlen_nonneg s). unfold tstring_sizeof. rewrite to_i32_id by (red; lia).
  cbv zeta. destruct (254 <? zlen s); lia.
Qed.
Lemma tstring_pos s : str_ok s -> 0 < tstring_sizeof s.
Proof. intros H. pose proof (tstring_bound s H). pose proof (zlen_nonneg s). lia. Qed.

Lemma path_keylen_eq path : path_keylen path = 33 + tstring_sizeof path.
Proof.
  unfold path_keylen, key_len_for. change (beqb (bs "TFile") (bs "TBasket")) with false.
  change (tstring_sizeof (bs "TFile")) with 6. change (tstring_sizeof []) with 1. lia.
Qed.

Lemma str_ok_bs s : utf8_valid (bs s) = true -> zlen (bs s) < 2147483648 -> str_ok (bs s).
Proof. intros. now split. Qed.
Ltac str_lit := apply str_ok_bs; [reflexivity | rewrite zlen_def; vm_compute; reflexivity].

Lemma tkey_ok path : path_ok path -> key_ok (tkey path) /\ key_hdr_len (tkey path) = path_keylen path.
Proof.
  intros [Hs Hk]. pose proof (tstring_pos path Hs). rewrite path_keylen_eq in *.
  split.
  - unfold key_ok, tkey. cbn [k_rvers k_nbytes k_objlen k_date k_keylen k_cycle k_seek k_pdir k_class k_name k_title].
    rewrite path_keylen_eq.
    change (tstring_sizeof []) with 1. unfold kStartBigFile. change (1000 <? 4) with false. cbv iota.
    repeat match goal with |- _ /\ _ => split end; try rt_side; try exact Hs; try exact str_ok_nil;
      try exact now_ok; str_lit.
  - unfold key_hdr_len, tkey. cbn [k_rvers k_class k_name k_title].
    change (tstring_sizeof (bs "TFile")) with 6. change (tstring_sizeof []) with 1.
    change (1000 <? 4) with false. cbv iota. lia.
Qed.

Lemma hdr0_ok path : path_ok path -> fhdr_ok (hdr0 path) /\ fhdr_big (hdr0 path) = false.
Proof.
  intros [Hs Hk]. pose proof (tstring_pos path Hs). rewrite path_keylen_eq in *.
  assert (fhdr_big (hdr0 path) = false) as E.
  { unfold fhdr_big, hdr0, E0, nbname, kStartBigFile. cbn [fh_end fh_seekfree fh_seekinfo].
    rewrite path_keylen_eq. change (tstring_sizeof []) with 1. lia. }
  split; [|exact E]. unfold fhdr_ok. rewrite E. unfold hdr0, E0, nbname.
  cbn [fh_version fh_begin fh_end fh_seekfree fh_nbfree fh_nfree fh_nbname fh_units fh_comp
       fh_seekinfo fh_nbinfo fh_uuid].
  rewrite path_keylen_eq. change (tstring_sizeof []) with 1.
  repeat match goal with |- _ /\ _ => split end; try rt_side. now rewrite zlen_repeat.
Qed.

Lemma hdrb_ok h : fhdr_ok h ->
  zlen (hdrb h) = fhdr_len h /\ (forall off, wrun off (fhdr_marshal h) = Ok (hdrb h)) /\ reads fhdr_unmarshal (hdrb h) h.
Proof.
  intros H. destruct (rt_wbytes _ _ _ _ (fhdr_rt h H)) as (L & Hw & Hr).
  repeat split; auto. intros off. now apply writes_wrun.
Qed.
Lemma dirb_ok d : dir_ok d ->
  zlen (dirb d) = dir_len d /\ (forall off, wrun off (dir_marshal d) = Ok (dirb d)) /\
  writes (dir_marshal d) (dirb d) /\ reads dir_unmarshal (dirb d) (dir_seen d).
Proof.
  intros H. destruct (rt_wbytes _ _ _ _ (dir_rt d H)) as (L & Hw & Hr).
  repeat split; auto. intros off. now apply writes_wrun.
Qed.

Lemma dir0_ok path ks sk nk : path_ok path -> is_i32 sk -> is_i32 nk ->
  dir_ok (d_set_saved (d_set_keys (dir0 path) ks) sk nk).
Proof.
  intros [Hs Hk] H1 H2. pose proof (tstring_pos path Hs). rewrite path_keylen_eq in *.
  unfold dir_ok, dir0, dir_big, nbname, d_set_saved, d_set_keys.
  cbn [d_rvers d_ctime d_mtime d_nbkeys d_nbname d_seekdir d_seekparent d_seekkeys d_uuid].
  rewrite path_keylen_eq. change (tstring_sizeof []) with 1. change (1000 <? 5) with false. cbv iota.
  repeat match goal with |- _ /\ _ => split end; try rt_side; try exact now_ok. now rewrite zlen_repeat.
Qed.

Lemma writes_str s : str_ok s -> writes (write_string s) (str_bytes s) /\ zlen (str_bytes s) = tstring_sizeof s.
Proof.
  intros [L U]. pose proof (zlen_nonneg s). split; [apply writes_string; red; lia|].
  symmetry. now apply tstring_sizeof_len.
Qed.

Lemma create_ok path : path_ok path -> create path = (file0 path, Ok tt).
Proof.
  intros P. pose proof P as [Hs Hk]. pose proof (tstring_pos path Hs).
  unfold create, create_body.
  unfold fbind at 1, fgets at 1. unfold fbind at 1, fgets at 1. cbn [file_init f_dir f_hdr dir_new d_name d_title fhdr_new fh_version].
  change (record_size 63002) with 60. cbv zeta.
  assert (S : small (file_init path) 100).
  { unfold small, file_init, kStartBigFile. cbn. unfold kStartBigFile. repeat split; try lia. eauto. }
  change (key_len_for path [] (bs "TFile") false) with (path_keylen path) in *.
  pose proof (path_keylen_eq path) as EK.
  unfold fbind at 1.
  rewrite (key_new_small _ 100); [|exact S|change (tstring_sizeof []) with 1; lia| |].
  2: { unfold kStartBigFile. change (tstring_sizeof []) with 1. fold (path_keylen path). lia. }
  2: { fold (path_keylen path). lia. }
  fold (path_keylen path).
  cbn [k_keylen k_seek].
  unfold fbind at 1, fmodify at 1. unfold fbind at 1, fmodify at 1.
  unfold write_fhdr. unfold fbind at 1. unfold fbind at 1, fmodify at 1. unfold fbind at 1, fgets at 1.
  set (f1 := f_set_dir _ _).
  assert (EF : f_set_hdr f1 (fhdr_units (h_set_nfree (f_hdr f1) (to_i32 (zlen (f_spans f1)))))
     = mkFile (IOWrite []) (hdr0 path) (dir0 path) [mkSeg (E0 path) kStartBigFile] [] path).
  { unfold f1, f_set_dir, f_set_hdr, f_end, f_set_spans, h_set_nbname, h_set_end, h_set_nfree, d_set_pos.
    cbn [f_io f_hdr f_dir f_spans f_sinfos f_id file_init fhdr_new dir_new fh_version fh_begin fh_end fh_seekfree
         fh_nbfree fh_nfree fh_nbname fh_units fh_comp fh_seekinfo fh_nbinfo fh_uuid
         d_rvers d_ctime d_mtime d_nbkeys d_nbname d_seekdir d_seekparent d_seekkeys d_uuid d_class d_name d_title d_keys].
    rewrite (@zlen_def fseg). cbn [length]. change (to_i32 (Z.of_nat 1)) with 1.
    replace (100 + (tstring_sizeof path + tstring_sizeof [] + 60 + path_keylen path)) with (E0 path)
      by (unfold E0, nbname; lia).
    unfold fhdr_units.
    match goal with |- context [fhdr_big ?h] => change h with (hdr0 path) end.
    rewrite (proj2 (hdr0_ok path P)). reflexivity. }
  rewrite EF. clear EF f1. cbn [f_hdr]. cbn [hdr0 fh_begin].
  unfold fbind at 1, flift at 1.
  destruct (hdrb_ok _ (proj1 (hdr0_ok path P))) as (_ & HW & _). rewrite HW.
  change (Z.to_nat 100) with 100%nat.
  unfold fbind at 1, fwrite at 1. cbn [f_io f_set_io].
  unfold fwrite at 1. cbn [f_io f_set_io f_hdr f_dir f_spans f_sinfos f_id app].
  unfold fbind at 1, fgets at 1. unfold fbind at 1, fgets at 1. cbn [f_id f_dir dir0 d_title].
  unfold fbind at 1, flift at 1.
  assert (DO : dir_ok (dir0 path)).
  { apply (dir0_ok path [] 0 0); [exact P|rt_side|rt_side]. }
  destruct (dirb_ok _ DO) as (_ & _ & DW & _).
  rewrite (writes_wrun _ (str_bytes path ++ str_bytes [] ++ dirb (dir0 path))).
  2: { eapply writes_bind; [apply writes_str; exact Hs|]. intros _.
       eapply writes_bind; [apply writes_str; exact str_ok_nil|]. intros _. exact DW. }
  erewrite key_write_ok; [|reflexivity|].
  2: { exact (proj1 (tkey_ok path P)). }
  unfold f_set_io, file0, create_log. cbn [f_io f_hdr f_dir f_spans f_sinfos f_id k_set_buffer k_seek k_keylen k_buffer app].
  reflexivity.
Qed.

(** ** Growing files *)

Definition base (path : bytes) (h : fhdr) (d : dirf) : bytes :=
  hdrb h ++ repeat 0 37 ++ name_rec path ++ dirb d.
(** The records after the name record, which declares twelve bytes more than are
    written for it. *)
Definition tail (recs : list bytes) : bytes :=
  match recs with [] => [] | _ => repeat 0 12 ++ concat recs end.
Definition rsize (recs : list bytes) : Z := zlen (concat recs).

Lemma rsize_snoc recs r : rsize (recs ++ [r]) = rsize recs + zlen r.
Proof. unfold rsize. rewrite concat_app, zlen_app. cbn [concat]. now rewrite app_nil_r. Qed.
Lemma rsize_nonneg recs : 0 <= rsize recs. Proof. apply zlen_nonneg. Qed.
Lemma tail_snoc recs r : tail (recs ++ [r]) = repeat 0 12 ++ concat recs ++ r.
Proof.
  unfold tail. destruct (recs ++ [r]) as [|x l] eqn:E; [now destruct recs|]. rewrite <- E.
  rewrite concat_app. cbn [concat]. now rewrite app_nil_r.
Qed.

Lemma name_rec_len path : path_ok path -> zlen (name_rec path) = nbname path.
Proof.
  intros P. destruct (tkey_ok path P) as [K L]. destruct (khdr_ok _ K) as (Lk & _).
  unfold name_rec, nbname. rewrite !zlen_app, Lk, L.
  rewrite (proj2 (writes_str path (proj1 P))), (proj2 (writes_str [] str_ok_nil)). reflexivity.
Qed.

Lemma base_len path h d : path_ok path -> fhdr_ok h -> fhdr_big h = false -> dir_ok d -> dir_big d = false ->
  zlen (base path h d) = E0 path - 12.
Proof.
  intros P H1 H2 D1 D2. unfold base, E0. rewrite !zlen_app, zlen_repeat, name_rec_len by exact P.
  destruct (hdrb_ok h H1) as (-> & _). destruct (dirb_ok d D1) as (-> & _).
  unfold fhdr_len, dir_len. rewrite H2, D2. lia.
Qed.

Lemma log_append log b recs E h p :
  disk_of log = b ++ tail recs -> zlen b = E - 12 -> h <> [] ->
  disk_of (log ++ [(E + rsize recs, h); (E + rsize recs + zlen h, p)]) = b ++ tail (recs ++ [h ++ p]).
Proof.
  intros D L H.
  replace (log ++ [(E + rsize recs, h); (E + rsize recs + zlen h, p)])
    with ((log ++ [(E + rsize recs, h)]) ++ [(E + rsize recs + zlen h, p)]) by now rewrite <- app_assoc.
  rewrite !disk_of_snoc, D. cbn [fst snd].
  assert (E1 : dwrite (b ++ tail recs) (E + rsize recs) h = b ++ repeat 0 12 ++ concat recs ++ h).
  { unfold rsize. destruct recs as [|r recs].
    - unfold tail. rewrite app_nil_r. cbn [concat]. rewrite (@zlen_nil Z).
      replace (E + 0) with (zlen b + Z.of_nat 12) by lia. now rewrite dwrite_end.
    - rewrite dwrite_append; [unfold tail; now rewrite <- !app_assoc|].
      unfold tail. rewrite !zlen_app, zlen_repeat. lia. }
  rewrite E1. rewrite dwrite_append.
  - rewrite tail_snoc. now rewrite <- !app_assoc.
  - rewrite !zlen_app, zlen_repeat. unfold rsize. lia.
Qed.

Lemma disk_create path : path_ok path -> disk_of (create_log path) = base path (hdr0 path) (dir0 path).
Proof.
  intros P. destruct (hdr0_ok path P) as [H1 H2]. destruct (hdrb_ok _ H1) as (LH & _).
  unfold fhdr_len in LH. rewrite H2 in LH.
  destruct (tkey_ok path P) as [K L]. destruct (khdr_ok _ K) as (LK & _).
  unfold create_log, disk_of. cbn [fold_left fst snd].
  change (dwrite [] 0 (repeat 0 100)) with (repeat 0 100).
  change (repeat 0 100) with ([] ++ repeat 0 63 ++ repeat 0 37).
  rewrite dwrite_mid; [|reflexivity|now rewrite LH, zlen_repeat]. cbn [app].
  rewrite (dwrite_append (hdrb (hdr0 path) ++ repeat 0 37)) by (rewrite zlen_app, LH, zlen_repeat; reflexivity).
  rewrite dwrite_append by (rewrite !zlen_app, LH, LK, zlen_repeat; lia).
  unfold base, name_rec. now rewrite <- !app_assoc.
Qed.

(** The state of a file under construction. *)
Definition lay_file (path : bytes) (keys : list key) (sis : list sinfo) (log : list (Z * bytes)) (e : Z) : file :=
  mkFile (IOWrite log) (h_set_end (hdr0 path) e) (d_set_keys (dir0 path) keys)
         [mkSeg e kStartBigFile] sis path.

(** A record at [e]: a header [h] that declares its own length and that of the
    payload [p]; a basket header goes on for 19 bytes after the key. *)
Definition rec_good (e : Z) (h p : bytes) : Prop :=
  exists w x k, h = w ++ x /\ writes (key_marshal k) w /\ reads key_unmarshal w (key_seen k) /\
    zlen x = (if beqb (k_class k) (bs "TBasket") then 19 else 0) /\
    k_seek k = e /\ k_keylen k = zlen h /\ k_nbytes k = zlen h + zlen p /\ k_objlen k = zlen p.

(** Writes that append records one after the other. *)
Inductive rlog : Z -> list (Z * bytes) -> Z -> Prop :=
| rlog_nil e : rlog e [] e
| rlog_snoc e rest e1 h p : rlog e rest e1 -> rec_good e1 h p ->
    rlog e (rest ++ [(e1, h); (e1 + zlen h, p)]) (e1 + zlen h + zlen p).

Lemma rlog_ge e rest e' : rlog e rest e' -> e <= e' /\ Forall (fun w => e <= fst w) rest.
Proof.
  intros H. induction H as [e|e rest e1 h p H [IH F] G]; [split; [lia|constructor]|].
  pose proof (zlen_nonneg h). pose proof (zlen_nonneg p). split; [lia|].
  apply Forall_app. split; [exact F|]. repeat constructor; cbn [fst]; lia.
Qed.

Definition lay_log (path : bytes) (recs : list bytes) (log : list (Z * bytes)) : Prop :=
  (exists rest, log = create_log path ++ rest /\ rlog (E0 path) rest (E0 path + rsize recs)) /\
  disk_of log = base path (hdr0 path) (dir0 path) ++ tail recs.

Definition lay (path : bytes) (keys : list key) (sis : list sinfo) (recs : list bytes) (f : file) : Prop :=
  exists log, f = lay_file path keys sis log (E0 path + rsize recs) /\ lay_log path recs log.

Lemma lay_create path : path_ok path -> lay path [] [] [] (file0 path).
Proof.
  intros P. exists (create_log path). split.
  - unfold lay_file, file0, rsize. cbn [concat]. rewrite (@zlen_nil Z), Z.add_0_r. reflexivity.
  - split.
    + exists []. split; [now rewrite app_nil_r|]. unfold rsize. cbn [concat]. rewrite (@zlen_nil Z), Z.add_0_r. constructor.
    + rewrite disk_create by exact P. now rewrite app_nil_r.
Qed.

Lemma E0_pos path : path_ok path -> 190 < E0 path < 66000.
Proof.
  intros [Hs Hk]. pose proof (tstring_pos path Hs). unfold E0, nbname. rewrite path_keylen_eq in *.
  change (tstring_sizeof []) with 1. lia.
Qed.

Lemma lay_small path keys sis log e : path_ok path -> E0 path <= e <= kStartBigFile ->
  small (lay_file path keys sis log e) e.
Proof.
  intros P H. pose proof (E0_pos path P).
  unfold small, lay_file. cbn [f_hdr h_set_end fh_end f_spans fh_comp f_dir].
  split; [reflexivity|]. split; [eauto|]. split; [reflexivity|]. split; [reflexivity|]. lia.
Qed.

Lemma lay_end path keys sis log e e' :
  f_end (lay_file path keys sis log e) e' = lay_file path keys sis log e'.
Proof. reflexivity. Qed.

Lemma lay_log_append path recs log h p : path_ok path -> lay_log path recs log -> h <> [] ->
  rec_good (E0 path + rsize recs) h p ->
  lay_log path (recs ++ [h ++ p]) (log ++ [(E0 path + rsize recs, h); (E0 path + rsize recs + zlen h, p)]).
Proof.
  intros P [(rest & -> & F) D] H G. pose proof (rsize_nonneg recs). pose proof (zlen_nonneg h).
  split.
  - exists (rest ++ [(E0 path + rsize recs, h); (E0 path + rsize recs + zlen h, p)]).
    split; [now rewrite app_assoc|]. rewrite rsize_snoc, zlen_app, !Z.add_assoc. now constructor.
  - apply log_append; [exact D| |exact H].
    destruct (hdr0_ok path P). apply base_len; try assumption.
    + apply (dir0_ok path [] 0 0); [exact P|rt_side|rt_side].
    + reflexivity.
Qed.

(** Keys of objects in a small file. *)
Definition key_good (k : key) : Prop := key_ok k /\ k_rvers k = 4 /\ k_keylen k = key_hdr_len k.

Lemma khdr_nonempty k : key_ok k -> khdr k <> [].
Proof.
  intros K E. destruct (khdr_ok k K) as (L & _). rewrite E, (@zlen_nil Z) in L.
  destruct K as (_ & _ & _ & _ & _ & _ & _ & _ & H1 & H2 & H3).
  pose proof (tstring_pos _ H1). pose proof (tstring_pos _ H2). pose proof (tstring_pos _ H3).
  unfold key_hdr_len in L. destruct (1000 <? k_rvers k); lia.
Qed.

(** Names that fit a key. *)
Definition names_ok (name title class : bytes) : Prop :=
  str_ok name /\ str_ok title /\ str_ok class /\ key_len_for name title class false < 32768.

Lemma key_len_pos n t c : names_ok n t c -> 29 <= key_len_for n t c false.
Proof.
  intros (H1 & H2 & H3 & _). pose proof (tstring_pos _ H1). pose proof (tstring_pos _ H2). pose proof (tstring_pos _ H3).
  unfold key_len_for. destruct (beqb c (bs "TBasket")); lia.
Qed.

Lemma mk_key_ok name title class cycle e objlen pdir :
  names_ok name title class -> 0 <= objlen -> 100 <= e -> e + (key_len_for name title class false + objlen) <= kStartBigFile ->
  is_i16 cycle -> is_i32 pdir ->
  forall buf, key_ok (mkKey 4 (objlen + key_len_for name title class false) objlen now_ts
            (key_len_for name title class false) cycle e pdir class name title buf).
Proof.
  intros N Ho He Hb Hc Hp buf. pose proof (key_len_pos _ _ _ N). destruct N as (Hn & Ht & Hcl & Hl).
  unfold key_ok, kStartBigFile in *. cbn [k_rvers k_nbytes k_objlen k_date k_keylen k_cycle k_seek k_pdir k_class k_name k_title].
  change (1000 <? 4) with false. cbv iota.
  repeat match goal with |- _ /\ _ => split end; try assumption; try rt_side. exact now_ok.
Qed.

Lemma key_len_hdr name title class a b c d e f g h : beqb class (bs "TBasket") = false ->
  key_len_for name title class false = key_hdr_len (mkKey 4 a b c d e f g class name title h).
Proof. intros H. unfold key_len_for, key_hdr_len. rewrite H. cbn [k_rvers k_class k_name k_title]. change (1000 <? 4) with false. cbv iota. lia. Qed.
