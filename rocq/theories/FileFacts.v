(** Crash points, records and headers of a finished session. *)
From Verif Require Import Base Bytes Utf8 RBuf WBuf Codec Values Key Header Obj Streamer RObj TreeObj File FileLay FileOps FileMono
  FileClose FileOpen FileFinal Names Column ColRead ColOps TreeOps ColBack ColType TreeFinal TreeWrite TreeSession StreamerDb
  Spec CodecFacts SpecTree SessFacts.

(** ** Crash points *)
Lemma app_split {A} (a b c d : list A) : a ++ b = c ++ d ->
  (exists x, c = a ++ x /\ b = x ++ d) \/ (exists x, a = c ++ x /\ d = x ++ b).
Proof.
  revert c. induction a as [|y a IH]; intros c H; [left; exists c; auto|].
  destruct c as [|z c]; [right; exists (y :: a); auto|]. cbn [app] in H. injection H as <- H.
  destruct (IH _ H) as [(x & -> & ->)|(x & -> & ->)]; [left|right]; exists x; auto.
Qed.

Lemma crash_app A B d : crash (A ++ B) d -> crash A d \/ exists d', d = A ++ d' /\ crash B d'.
Proof.
  intros H. inversion H as [dn r E1 E2|dn p a b r E1 E2]; subst.
  - symmetry in E1. apply app_split in E1 as [(x & -> & ->)|(x & -> & ->)].
    + right. exists x. split; [reflexivity|constructor].
    + left. constructor.
  - symmetry in E1. apply app_split in E1 as [(x & -> & ->)|(x & -> & E)].
    + right. exists (x ++ [(p, a)]). split; [now rewrite app_assoc|constructor].
    + destruct x as [|w x]; cbn [app] in E.
      * subst B. right. exists [(p, a)]. rewrite app_nil_r. split; [reflexivity|]. apply (crash_within []).
      * injection E as <- ->. left. constructor.
Qed.

Lemma crash_nil d : crash [] d -> d = [].
Proof.
  intros H. inversion H as [dn r E1 E2|dn p a b r E1 E2]; subst.
  - now destruct d.
  - now destruct dn.
Qed.

Lemma crash_cons p b B d : crash ((p, b) :: B) d ->
  d = [] \/ (exists a c, b = a ++ c /\ d = [(p, a)]) \/ exists d', d = (p, b) :: d' /\ crash B d'.
Proof.
  intros H. change ((p, b) :: B) with ([(p, b)] ++ B) in H. apply crash_app in H as [H|(d' & -> & H)].
  - inversion H as [dn r E1 E2|dn q a c r E1 E2]; subst.
    + destruct d as [|w d]; [now left|]. injection E1 as -> E1. destruct d; [|discriminate].
      right. right. exists []. split; [reflexivity|]. apply (crash_between []).
    + destruct dn as [|w dn]; [|destruct dn; discriminate]. injection E1 as -> E1 _. right. left. exists a, c. auto.
  - right. right. exists d'. auto.
Qed.

Lemma crash_Forall (Q : Z -> Prop) A d : crash A d -> Forall (fun w => Q (fst w)) A -> Forall (fun w => Q (fst w)) d.
Proof.
  intros H F. inversion H; subst; apply Forall_app in F as [F1 F2]; [exact F1|].
  apply Forall_app. split; [exact F1|]. inversion F2; subst. constructor; [assumption|constructor].
Qed.

Lemma crash_all A : crash A A.
Proof. rewrite <- (app_nil_r A) at 1. constructor. Qed.

(** A header cut short. *)
Lemma read_at_end d n b : 0 < to_u64 n -> zlen d = 100 -> read_at d 100 n <> Ok b.
Proof.
  unfold read_at. change (to_u64 100) with 100. intros H L. rewrite L.
  destruct (2 ^ 63 <=? 100); [discriminate|]. destruct (2 ^ 63 <=? to_u64 n); [discriminate|].
  destruct (Z.eqb_spec (to_u64 n) 0); [lia|]. destruct (Z.leb_spec (100 + to_u64 n) 100); [lia|]. discriminate.
Qed.

Lemma record_size_pos v : 48 <= record_size v <= 60.
Proof. unfold record_size. destruct (40000 <=? v); lia. Qed.

Lemma u64_add_inv a b c : u64_add a b = Ok c -> c = a + b.
Proof. unfold u64_add. destruct (a + b <? 2 ^ 64); congruence. Qed.

Lemma to_u64_range z : 0 <= to_u64 z < 2 ^ 64.
Proof. unfold to_u64, wrap_u. change (256 ^ Z.of_nat 8) with (2 ^ 64). apply Z.mod_pos_bound. lia. Qed.

Lemma dir_info_past d h x : fh_begin h = 100 -> zlen d = 100 -> read_dir_info d h <> Ok x.
Proof.
  intros B L H. unfold read_dir_info in H. apply rbind_inv in H as (n & H1 & H). apply rbind_inv in H as (t & H2 & H).
  destruct (_ <? t); [discriminate|]. apply rbind_inv in H as (data & H3 & _).
  pose proof (record_size_pos (fh_version h)). pose proof (to_u64_range (fh_nbname h)).
  unfold u64_add in H1. destruct (Z.ltb_spec (to_u64 (fh_nbname h) + record_size (fh_version h)) (2 ^ 64)); [|discriminate].
  injection H1 as <-. rewrite B in H3. apply read_at_end in H3; [assumption| |assumption]. rewrite to_u64_small; lia.
Qed.

Ltac inv_bind H := let a := fresh "a" in let s := fresh "s" in let E := fresh "E" in apply bind_inv in H as (a & s & E & H).

Definition head12 : bytes := root_magic ++ be 4 63002 ++ be 4 100.

Lemma hdr0_head path : path_ok path -> exists y, hdrb (hdr0 path) = head12 ++ y /\ zlen y = 51.
Proof.
  intros P. destruct (hdr0_ok path P) as (HO & HB). destruct (hdrb_ok _ HO) as (L & _).
  unfold fhdr_len in L. rewrite HB in L.
  assert (exists y, hdrb (hdr0 path) = head12 ++ y) as (y & E).
  { eexists. unfold hdrb. apply writes_wbytes. unfold fhdr_marshal. rewrite HB. cbv beta iota zeta delta [andb].
    change (fh_version (hdr0 path)) with 63002. change (to_i32 (fh_begin (hdr0 path))) with 100.
    unfold head12. rewrite <- !app_assoc.
    apply writes_bind; [apply writes_put|intros _]. apply writes_bind; [apply writes_int|intros _].
    apply writes_bind; [apply writes_int|intros _].
    apply writes_bind; [|intros _; apply writes_bind; [apply writes_int|intros _; apply writes_put]].
    change (63002 <? 1000000) with true. cbv iota.
    repeat (apply writes_bind; [apply writes_int|intros _]). apply writes_int. }
  exists y. split; [exact E|]. rewrite E, zlen_app in L. change (zlen head12) with 12 in L. lia.
Qed.

Lemma fhdr_begin y h : rrun 0 fhdr_unmarshal (head12 ++ y) = Ok h -> fh_begin h = 100.
Proof.
  intros H. unfold rrun in H. destruct (fhdr_unmarshal (r_new (head12 ++ y) 0)) as [[h' s']| | | |] eqn:E; try discriminate.
  injection H as <-. unfold fhdr_unmarshal in E.
  unfold head12 in E. rewrite <- !app_assoc in E.
  pose proof (reads_extract_n 4 root_magic None eq_refl [] (be 4 63002 ++ be 4 100 ++ y) 0 []) as R1.
  pose proof (reads_sint 4 63002 None ltac:(lia) ltac:(vm_compute; split; congruence) ([] ++ root_magic) (be 4 100 ++ y) 0 []) as R2.
  pose proof (reads_sint 4 100 None ltac:(lia) ltac:(vm_compute; split; congruence) ([] ++ root_magic ++ be 4 63002) y 0 []) as R3.
  cbn [app] in R1, R2, R3. rewrite !app_assoc in R1. rewrite !app_assoc in R2. rewrite !app_assoc in R3. rewrite !app_assoc in E.
  rewrite zlen_nil in R1.
  unfold r_new, read_array_u8 at 1 in E. unfold bind at 1 in E. rewrite R1 in E. cbv beta iota in E.
  rewrite beqb_refl in E. cbn [negb] in E.
  unfold bind at 1 in E. unfold read_i32 at 1 in E. change (0 + zlen root_magic) with (zlen root_magic) in E. rewrite R2 in E. cbv beta iota in E.
  unfold bind at 1 in E. unfold read_i32 at 1 in E.
  change (zlen root_magic + zlen (be 4 63002)) with (zlen (root_magic ++ be 4 63002)) in E. rewrite R3 in E. cbv beta iota in E.
  clear R1 R2 R3. do 11 inv_bind E. injection E as <- _. reflexivity.
Qed.

Lemma torn_header path a b : path_ok path -> hdrb (hdr0 path) = a ++ b -> refused (a ++ repeat 0 (100 - length a)).
Proof.
  intros P E f. destruct (hdr0_head path P) as (y & Hy & Ly). rewrite Hy in E.
  assert (length a <= 63)%nat as La.
  { apply (f_equal (@length Z)) in E. rewrite !app_length in E. rewrite zlen_def in Ly. change (length head12) with 12%nat in E. lia. }
  apply app_split in E as [(x & -> & ->)|(x & E & ->)].
  - intros H. unfold open_file in H. apply rbind_inv in H as (buf & H1 & H). apply rbind_inv in H as (h & H2 & H).
    apply rbind_inv in H as (dir & H3 & _).
    assert (zlen ((head12 ++ x) ++ repeat 0 (100 - length (head12 ++ x))) = 100) as LD.
    { rewrite zlen_app, zlen_repeat, zlen_def. lia. }
    apply dir_info_past in H3; [assumption| |assumption].
    unfold read_at in H1. change (to_u64 0) with 0 in H1. change (to_u64 76) with 76 in H1. rewrite LD in H1.
    change (2 ^ 63 <=? 0) with false in H1. change (2 ^ 63 <=? 76) with false in H1.
    change ((76 =? 0) || (0 + 76 <=? 100)) with true in H1. cbv iota in H1. apply (f_equal (fun r => match r with Ok b => b | _ => [] end)) in H1.
    cbv iota in H1. rewrite <- H1 in H2. revert H2. rewrite <- app_assoc. generalize (x ++ repeat 0 (100 - length (head12 ++ x))). intros z H2.
    assert (zsub (head12 ++ z) 0 76 = head12 ++ firstn 64 z) as Ez.
    { unfold zsub. change (Z.to_nat 0) with 0%nat. change (Z.to_nat 76) with (length head12 + 64)%nat. cbn [skipn]. apply firstn_app_2. }
    rewrite Ez in H2. now apply fhdr_begin in H2.
  - assert (length a <= 12)%nat as L12. { apply (f_equal (@length Z)) in E. rewrite app_length in E. change (length head12) with 12%nat in E. lia. }
    assert (a = firstn (length a) head12) as Ea. { rewrite E, firstn_app, Nat.sub_diag, firstn_all. cbn [firstn]. now rewrite app_nil_r. }
    clear - Ea L12. remember (length a) as n eqn:Hn. clear Hn. subst a.
    assert (n = 0 \/ n = 1 \/ n = 2 \/ n = 3 \/ n = 4 \/ n = 5 \/ n = 6 \/ n = 7 \/ n = 8 \/ n = 9 \/ n = 10 \/ n = 11 \/ n = 12)%nat as C by lia.
    repeat (destruct C as [->|C]; [vm_compute; discriminate|]). subst n. vm_compute. discriminate.
Qed.

Lemma short_refused d : zlen d < 76 -> open_file d = Err EIo.
Proof. intros H. unfold open_file. rewrite read_at_short by lia. reflexivity. Qed.

Lemma blank_refused n : refused (repeat 0 n).
Proof.
  intros f. destruct (Z_lt_ge_dec (zlen (repeat 0 n)) 76) as [H|H]; [rewrite short_refused by assumption; discriminate|].
  rewrite zlen_repeat in H. replace n with (76 + (n - 76))%nat by lia. rewrite repeat_app.
  unfold open_file. rewrite (read_at_seg _ 0 76 (repeat 0 76)); [vm_compute; discriminate| |reflexivity|lia].
  exists [], (repeat 0 (n - 76)). split; [reflexivity|reflexivity].
Qed.

Lemma repeat_prefix {A} (z : A) n a c : repeat z n = a ++ c -> a = repeat z (length a) /\ (length a <= n)%nat.
Proof.
  revert a. induction n as [|n IH]; intros a H.
  - destruct a; [split; [reflexivity|cbn; lia]|discriminate].
  - destruct a as [|x a]; [split; [reflexivity|cbn; lia]|]. cbn [repeat app] in H. injection H as <- H.
    destruct (IH a H) as [E L]. cbn [length repeat]. split; [now f_equal|lia].
Qed.

Lemma disk_snoc l w : disk_of (l ++ [w]) = dwrite (disk_of l) (fst w) (snd w).
Proof. unfold disk_of. now rewrite fold_left_app. Qed.

Lemma disk_hdr path : path_ok path -> disk_of [(0, repeat 0 100); (0, hdrb (hdr0 path))] = hdrb (hdr0 path) ++ repeat 0 37.
Proof.
  intros P. destruct (hdr0_ok path P) as [H1 H2]. destruct (hdrb_ok _ H1) as (LH & _).
  unfold fhdr_len in LH. rewrite H2 in LH. unfold disk_of. cbn [fold_left fst snd].
  change (dwrite [] 0 (repeat 0 100)) with (repeat 0 100).
  change (repeat 0 100) with ([] ++ repeat 0 63 ++ repeat 0 37).
  now rewrite dwrite_mid; [|reflexivity|now rewrite LH, zlen_repeat].
Qed.

Lemma torn_create path done : path_ok path -> crash (create_log path) done -> done <> create_log path -> refused (disk_of done).
Proof.
  intros P H NE. destruct (hdr0_ok path P) as [H1 H2]. destruct (hdrb_ok _ H1) as (LH & _).
  unfold fhdr_len in LH. rewrite H2 in LH. destruct (tkey_ok path P) as [K L]. destruct (khdr_ok _ K) as (LK & _).
  pose proof (E0_pos path P) as HE. pose proof (disk_hdr path P) as DH.
  unfold create_log in H.
  apply crash_cons in H as [->|[(a & c & E & ->)|(d & -> & H)]].
  - intros f. rewrite short_refused by reflexivity. discriminate.
  - apply repeat_prefix in E as [-> _]. unfold disk_of. cbn [fold_left fst snd].
    assert (dwrite [] 0 (repeat 0 (length a)) = repeat 0 (length a)) as ->; [|apply blank_refused].
    rewrite <- (app_nil_l (repeat 0 (length a))) at 2. now rewrite dwrite_append by reflexivity.
  - apply crash_cons in H as [->|[(a & c & E & ->)|(d' & -> & H)]].
    + apply (blank_refused 100).
    + assert (length a <= 63)%nat as La. { rewrite E, zlen_app, !zlen_def in LH. lia. }
      unfold disk_of. cbn [fold_left fst snd]. change (dwrite [] 0 (repeat 0 100)) with (repeat 0 100).
      replace 100%nat with (length a + (100 - length a))%nat at 1 by lia. rewrite repeat_app.
      assert (zlen (repeat 0 (length a)) = zlen a) as LL by (rewrite zlen_repeat, zlen_def; reflexivity).
      pose proof (dwrite_mid [] (repeat 0 (length a)) (repeat 0 (100 - length a)) a 0 eq_refl LL) as W. cbn [app] in W. rewrite W.
      eapply torn_header; eassumption.
    + assert (forall x, zlen x < E0 path - 100 -> refused ((hdrb (hdr0 path) ++ repeat 0 37) ++ x)) as Short.
      { intros x Lx f. rewrite (open_short _ path); [discriminate|exact P| |].
        - exists [], (repeat 0 37 ++ x). rewrite <- app_assoc. split; reflexivity.
        - rewrite !zlen_app, LH, zlen_repeat. pose proof (zlen_nonneg x). lia. }
      assert (zlen (hdrb (hdr0 path) ++ repeat 0 37) = 100) as L100 by (rewrite zlen_app, LH, zlen_repeat; reflexivity).
      change ((0, repeat 0 100) :: (0, hdrb (hdr0 path)) :: d') with ([(0, repeat 0 100); (0, hdrb (hdr0 path))] ++ d').
      pose proof (name_rec_len path P) as LN. unfold name_rec in LN. rewrite !zlen_app in LN.
      unfold E0 in Short, HE.
      apply crash_cons in H as [->|[(a & c & E & ->)|(d & -> & H)]].
      * rewrite app_nil_r, DH, <- (app_nil_r (_ ++ repeat 0 37)). apply Short. rewrite zlen_nil. lia.
      * rewrite disk_snoc, DH. cbn [fst snd]. rewrite dwrite_append by lia. apply Short.
        rewrite E, zlen_app in LN. pose proof (zlen_nonneg c). pose proof (zlen_nonneg (str_bytes path)). pose proof (zlen_nonneg (str_bytes [])). lia.
      * apply crash_cons in H as [->|[(a & c & E & ->)|(d' & -> & H)]].
        -- rewrite disk_snoc, DH. cbn [fst snd]. rewrite dwrite_append by lia. apply Short.
           pose proof (zlen_nonneg (str_bytes path)). pose proof (zlen_nonneg (str_bytes [])). lia.
        -- replace ([(0, repeat 0 100); (0, hdrb (hdr0 path))] ++ [(100, khdr (tkey path)); (100 + path_keylen path, a)])
             with (([(0, repeat 0 100); (0, hdrb (hdr0 path))] ++ [(100, khdr (tkey path))]) ++ [(100 + path_keylen path, a)]) by reflexivity.
           rewrite !disk_snoc, DH. cbn [fst snd]. rewrite (dwrite_append _ (khdr (tkey path))) by lia.
           rewrite dwrite_append by (rewrite zlen_app, L100; lia). rewrite <- app_assoc. apply Short.
           assert (DO : dir_ok (dir0 path)) by (apply (dir0_ok path [] 0 0); [exact P|rt_side|rt_side]).
           destruct (dirb_ok _ DO) as (LD & _). assert (dir_big (dir0 path) = false) as DB by reflexivity.
           unfold dir_len in LD. rewrite DB in LD.
           apply (f_equal zlen) in E. rewrite !zlen_app in E. rewrite zlen_app. pose proof (zlen_nonneg c). lia.
        -- apply crash_nil in H as ->. now contradiction NE.
Qed.

Lemma crash_refused path rest done : path_ok path -> Forall (fun w => E0 path <= fst w) rest ->
  crash (create_log path ++ rest) done -> refused (disk_of done).
Proof.
  intros P F H. apply crash_app in H as [H|(d & -> & H)].
  - assert (done = create_log path \/ done <> create_log path) as [->|NE].
    { destruct (list_eq_dec (fun a b : Z * bytes => ltac:(repeat decide equality)) done (create_log path)); auto. }
    + intros f Hf. apply (unsaved_refused path [] (create_log path) [] P); [constructor|reflexivity|]. now exists f.
    + now apply torn_create with path.
  - intros f Hf. apply (unsaved_refused path d (create_log path ++ d) [] P); [|now rewrite app_nil_r|now exists f].
    now apply crash_Forall with (Q := fun z => E0 path <= z) in H.
Qed.

Lemma dwrite_max d p b : 0 <= p -> zlen (dwrite d p b) <= Z.max (zlen d) (p + zlen b).
Proof.
  intros Hp. unfold dwrite. destruct b as [|x b'] eqn:E; [lia|]. rewrite <- E. clear E. cbv zeta.
  rewrite !zlen_app, !zlen_def. rewrite ?firstn_length, ?skipn_length, ?repeat_length, ?app_length, ?zlen_def. rewrite ?repeat_length. lia.
Qed.

Lemma fold_len l d : zlen d <= zlen (fold_left (fun d w => dwrite d (fst w) (snd w)) l d).
Proof. revert d. induction l as [|w l IH]; intros d; cbn [fold_left]; [lia|]. pose proof (dwrite_len d (fst w) (snd w)). specialize (IH (dwrite d (fst w) (snd w))). lia. Qed.

Lemma crash_len all done : Forall (fun w => 0 <= fst w) all -> crash all done -> zlen (disk_of done) <= zlen (disk_of all).
Proof.
  intros F H. inversion H as [dn r|dn p a b r]; subst.
  - rewrite disk_of_app. apply fold_len.
  - apply Forall_app in F as [_ F]. inversion F as [|w ws Hp _]; subst. cbn [fst] in Hp. 
    rewrite disk_snoc, disk_of_app. cbn [fold_left fst snd]. etransitivity; [|apply fold_len].
    destruct a as [|x a]; [apply dwrite_len|].
    pose proof (dwrite_max (disk_of dn) p (x :: a) Hp). pose proof (dwrite_len (disk_of dn) p ((x :: a) ++ b)).
    pose proof (dwrite_reach (disk_of dn) p ((x :: a) ++ b) Hp ltac:(discriminate)). rewrite zlen_app in H2. pose proof (zlen_nonneg b). lia.
Qed.

(** ** Records *)
Lemma records_app p w1 l1 q w2 l2 r : records p w1 l1 q -> records q w2 l2 r -> records p (w1 ++ w2) (l1 ++ l2) r.
Proof. intros H H2. induction H; [exact H2|]. cbn [app]. constructor; auto. Qed.

Lemma rec_good_record e h p : rec_good e h p -> exists k, record e h p k.
Proof.
  intros (w & x & k & Eh & W & R & C & S & K & N & O). exists (key_seen k). exists w, x.
  split; [exact Eh|]. split; [apply reads_sk_decodes, R|]. exact (conj C (conj S (conj K (conj N O)))).
Qed.

Lemma rlog_records e rest e' : rlog e rest e' -> exists l, records e rest l e'.
Proof.
  induction 1 as [e|e rest e1 h p H (l & IH) G]; [exists []; constructor|].
  destruct (rec_good_record _ _ _ G) as (k & Hk). exists (l ++ [(e1, h, p, k)]).
  eapply records_app; [exact IH|]. constructor; [exact Hk|constructor].
Qed.

Lemma records_ge p ws l q : records p ws l q -> p <= q /\ Forall (fun w => p <= fst w /\ fst w + zlen (snd w) <= q) ws.
Proof.
  induction 1 as [p|p h b k ws l q R H (IH1 & IH2)]; [split; [lia|constructor]|].
  pose proof (zlen_nonneg h). pose proof (zlen_nonneg b). split; [lia|].
  constructor; [cbn [fst snd]; lia|]. constructor; [cbn [fst snd]; lia|].
  eapply Forall_impl; [|exact IH2]. cbv beta. intros w Hw. lia.
Qed.

Lemma in_order_cons w ws : Forall (fun w' => fst w + zlen (snd w) <= fst w') ws -> in_order ws -> in_order (w :: ws).
Proof.
  intros F I l1 a l2 b l3 E. destruct l1 as [|c l1]; cbn [app] in E; injection E as -> E.
  - subst ws. apply Forall_app in F as [_ F]. now inversion F.
  - now apply (I l1 a l2 b l3).
Qed.

Lemma records_order p ws l q : records p ws l q -> in_order ws.
Proof.
  induction 1 as [p|p h b k ws l q R H IH].
  - intros l1 w l2 w' l3 E. destruct l1; discriminate.
  - destruct (records_ge _ _ _ _ H) as [_ F]. pose proof (zlen_nonneg b).
    apply in_order_cons; cbn [fst snd].
    + constructor; [cbn [fst]; lia|]. eapply Forall_impl; [|exact F]. cbv beta. lia.
    + apply in_order_cons; [|exact IH]. cbn [fst snd]. eapply Forall_impl; [|exact F]. cbv beta. lia.
Qed.

(** A write later overwritten nowhere stays. *)
Lemma dwrite_put d p b : 0 <= p -> on_disk (dwrite d p b) p b \/ b = [].
Proof.
  intros Hp. destruct b as [|x b'] eqn:E; [now right|left]. rewrite <- E. unfold dwrite. rewrite E. rewrite <- E. clear E.
  set (d' := d ++ _). eexists _, _. split; [reflexivity|].
  assert (p <= zlen d') as H by (unfold d'; rewrite zlen_app, zlen_repeat; pose proof (zlen_nonneg d); lia).
  rewrite zlen_def in *. rewrite firstn_length. lia.
Qed.
Lemma on_disk_dwrite d p b q c : on_disk d p b -> q + zlen c <= p \/ p + zlen b <= q -> 0 <= q -> on_disk (dwrite d q c) p b.
Proof.
  intros (x & y & -> & L) H Hq. destruct c as [|c0 c'] eqn:E; [exists x, y; auto|]. rewrite <- E in *. 
  destruct H as [H|H].
  - (* inside [x] *)
    assert (exists x1 x2 x3, x = x1 ++ x2 ++ x3 /\ zlen x1 = q /\ zlen x2 = zlen c) as (x1 & x2 & x3 & -> & L1 & L2).
    { exists (firstn (Z.to_nat q) x), (firstn (length c) (skipn (Z.to_nat q) x)), (skipn (length c) (skipn (Z.to_nat q) x)).
      rewrite !firstn_skipn. rewrite !zlen_def in *. rewrite !firstn_length, skipn_length. repeat split; lia. }
    replace ((x1 ++ x2 ++ x3) ++ b ++ y) with (x1 ++ x2 ++ (x3 ++ b ++ y)) by now rewrite <- !app_assoc.
    rewrite dwrite_mid by assumption. exists (x1 ++ c ++ x3), y. rewrite <- !app_assoc. split; [reflexivity|].
    rewrite !zlen_app in *. lia.
  - destruct (dwrite_keeps (x ++ b) y q c) as (z & Hz); [rewrite zlen_app; lia|].
    rewrite <- app_assoc in Hz. rewrite Hz. exists x, z. rewrite <- app_assoc. auto.
Qed.
Lemma on_disk_app d p b e : on_disk d p b -> on_disk (d ++ e) p b.
Proof. intros (x & y & -> & L). exists x, (y ++ e). rewrite <- !app_assoc. auto. Qed.

Lemma fold_on_disk l d p b : on_disk d p b ->
  Forall (fun w => 0 <= fst w /\ (fst w + zlen (snd w) <= p \/ p + zlen b <= fst w)) l ->
  on_disk (fold_left (fun d w => dwrite d (fst w) (snd w)) l d) p b.
Proof.
  revert d. induction l as [|w l IH]; intros d H F; [exact H|]. inversion F as [|? ? (F1 & F2) F3]; subst. cbn [fold_left].
  apply IH; [|exact F3]. now apply on_disk_dwrite.
Qed.

(** Writes that stay clear of an earlier one. *)
Definition clear_of (w w' : Z * bytes) : Prop := 0 <= fst w' /\ (fst w' + zlen (snd w') <= fst w \/ fst w + zlen (snd w) <= fst w').
Definition settled (z : Z) : list (Z * bytes) -> Prop := ForallOrdPairs (fun w w' => z <= fst w -> clear_of w w').

Lemma settled_app z A B : settled z A -> settled z B ->
  (forall w w', In w A -> In w' B -> z <= fst w -> clear_of w w') -> settled z (A ++ B).
Proof.
  intros HA HB H. induction HA as [|w A F HA IH]; [exact HB|]. cbn [app]. constructor.
  - apply Forall_app. split; [exact F|]. apply Forall_forall. intros w' I. apply H; [now left|exact I].
  - apply IH. intros u u' I I'. apply H; [now right|exact I'].
Qed.
Lemma settled_low z A : Forall (fun w => fst w < z) A -> settled z A.
Proof.
  induction 1 as [|w A H F IH]; constructor; [|exact IH]. apply Forall_forall. intros w' _ Hz. lia.
Qed.
Lemma records_settled z p ws l q : 0 <= p -> records p ws l q -> settled z ws.
Proof.
  intros Hp H. revert Hp. induction H as [p|p h b k ws l q R H IH]; intros Hp; [constructor|].
  destruct (records_ge _ _ _ _ H) as [_ F]. pose proof (zlen_nonneg h). pose proof (zlen_nonneg b).
  constructor; [|constructor].
  - constructor; [intros _; split; cbn [fst snd]; lia|]. eapply Forall_impl; [|exact F]. intros w Hw _. cbv beta in Hw. split; cbn [fst snd]; lia.
  - eapply Forall_impl; [|exact F]. intros w Hw _. cbv beta in Hw. split; cbn [fst snd]; lia.
  - apply IH. lia.
Qed.
Lemma settled_keeps z l r w : 0 <= z -> settled z (l ++ r) -> In w l -> z <= fst w -> snd w <> [] -> on_disk (disk_of l) (fst w) (snd w).
Proof.
  intros Hz S I Hw Hn. apply in_split in I as (l1 & l2 & ->).
  assert (Forall (clear_of w) l2) as F.
  { clear - S Hw. rewrite <- app_assoc in S. induction l1 as [|u l1 IH]; cbn [app] in S.
    - inversion S as [|? ? F S']; subst. apply Forall_app in F as [F _]. eapply Forall_impl; [|exact F]. auto.
    - inversion S; subst. auto. }
  rewrite disk_of_app. cbn [fold_left]. apply fold_on_disk; [|exact F].
  destruct (dwrite_put (fold_left (fun d w => dwrite d (fst w) (snd w)) l1 []) (fst w) (snd w) (Z.le_trans _ _ _ Hz Hw)) as [H|H]; [exact H|contradiction].
Qed.

Lemma settled_file z A B l1 e1 d C l2 e2 H : 0 <= z -> Forall (fun w => fst w < z) A -> records z B l1 e1 ->
  0 <= fst d /\ fst d < z /\ fst d + zlen (snd d) <= z -> records e1 C l2 e2 ->
  Forall (fun w => 0 <= fst w /\ fst w < z /\ fst w + zlen (snd w) <= z) H ->
  settled z (A ++ B ++ d :: C ++ H).
Proof.
  intros Hz FA R1 Hd R2 FH. destruct (records_ge _ _ _ _ R1) as [L1 F1]. destruct (records_ge _ _ _ _ R2) as [L2 F2].
  rewrite Forall_forall in F1, F2, FA, FH. apply settled_app; [now apply settled_low, Forall_forall| |].
  2:{ intros w w' I _ Hw. specialize (FA _ I). lia. }
  assert (settled z (d :: C ++ H)) as S2.
  { apply (settled_app z [d]).
    - apply settled_low. constructor; [lia|constructor].
    - apply settled_app; [eapply records_settled; [|exact R2]; lia| |].
      + apply settled_low, Forall_forall. intros w I. specialize (FH _ I). lia.
      + intros w w' I I' _. specialize (F2 _ I). specialize (FH _ I'). split; [lia|left; lia].
    - intros w w' [<-|[]] _ Hw. lia. }
  apply settled_app; [eapply records_settled; [|exact R1]; lia|exact S2|].
  intros w w' I I' _. specialize (F1 _ I). destruct I' as [<-|I']; [split; [lia|left; lia]|].
  apply in_app_or in I' as [I'|I'].
  - specialize (F2 _ I'). split; [lia|right; lia].
  - specialize (FH _ I'). split; [lia|left; lia].
Qed.

Lemma rec_records k : key_good k -> k_nbytes k = k_keylen k + zlen (k_buffer k) -> k_objlen k = zlen (k_buffer k) ->
  beqb (k_class k) (bs "TBasket") = false ->
  records (k_seek k) (rec_writes k) [(k_seek k, khdr k, k_buffer k, key_seen k)] (k_seek k + k_nbytes k).
Proof.
  intros KG N O C. unfold rec_writes. destruct (key_good_hdr k KG) as [LH RK]. rewrite <- LH.
  replace (k_seek k + k_nbytes k) with (k_seek k + zlen (khdr k) + zlen (k_buffer k)) by lia.
  constructor; [|constructor]. exists (khdr k), []. split; [now rewrite app_nil_r|].
  split; [apply reads_sk_decodes, RK|].
  split; [change (k_class (key_seen k)) with (k_class k); rewrite C; reflexivity|].
  change (k_seek (key_seen k)) with (k_seek k). change (k_keylen (key_seen k)) with (k_keylen k).
  change (k_nbytes (key_seen k)) with (k_nbytes k). change (k_objlen (key_seen k)) with (k_objlen k).
  repeat split; lia.
Qed.

Lemma mk_records n t c cy e b : key_good (mk_key n t c cy e b) -> beqb c (bs "TBasket") = false ->
  records e (rec_writes (mk_key n t c cy e b)) [(e, khdr (mk_key n t c cy e b), b, key_seen (mk_key n t c cy e b))] (e + k_nbytes (mk_key n t c cy e b)).
Proof. intros G C. apply (rec_records (mk_key n t c cy e b)); [exact G|reflexivity|reflexivity|exact C]. Qed.

Lemma hdr_small_len h : fhdr_ok h -> fhdr_big h = false -> zlen (hdrb h) = 63.
Proof. intros H B. destruct (hdrb_ok _ H) as (LH & _). unfold fhdr_len in LH. now rewrite B in LH. Qed.
Lemma dir_small_len d : dir_ok d -> dir_big d = false -> zlen (dirb d) = 48.
Proof. intros H B. destruct (dirb_ok _ H) as (LD & _). unfold dir_len in LD. now rewrite B in LD. Qed.

(** ** The writes of a finished session *)
Section Done.
Variables (path : bytes) (keys : list key) (sbuf : bytes) (recs : list bytes) (rest : list (Z * bytes)).
Notation e := (E0 path + rsize recs).
Hypothesis (P : path_ok path) (G : Forall key_good keys) (Hn : zlen keys < 2 ^ 31).
Hypothesis (L : lay_log path recs (create_log path ++ rest)) (Hr : Forall (fun w => E0 path <= fst w) rest).
Hypothesis (He : fh_end (hdr1 path keys sbuf e) <= kStartBigFile).
Notation log := (create_log path ++ rest).
Notation kk := (kkey path keys e).
Notation e1 := (e + k_nbytes kk).
Notation ks := (skey sbuf e1).
Notation e2 := (e1 + k_nbytes ks).
Notation kf := (fkey path e2).
Notation h1 := (hdr1 path keys sbuf e).
Notation d1 := (dir1 path keys e).
Notation all := (log ++ close_log path keys sbuf e).

Lemma keylens : 0 <= k_keylen kk /\ 0 <= k_keylen ks /\ 0 <= k_keylen kf.
Proof.
  pose proof (key_len_pos _ _ _ names_ok_si). pose proof (key_len_pos _ _ _ (names_ok_file path P)).
  pose proof (key_len_pos _ _ _ (names_ok_dir path P)).
  change (k_keylen ks) with (key_len_for si_kname si_title (bs "TList") false).
  change (k_keylen kf) with (key_len_for path [] (bs "TFile") false).
  change (k_keylen kk) with (key_len_for path [] (bs "TDirectory") false). lia.
Qed.

Lemma rec_writes_ge z k : z <= k_seek k -> 0 <= k_keylen k -> Forall (fun w => z <= fst w) (rec_writes k).
Proof. intros. unfold rec_writes. repeat constructor; cbn [fst]; lia. Qed.

Lemma all_split : all = (create_log path ++ rest ++ rec_writes kk) ++ (100 + nbname path, dirb d1) ::
   (rec_writes ks ++ rec_writes kf) ++ [(0, repeat 0 100); (0, hdrb h1)].
Proof. unfold close_log. cbv zeta. rewrite <- !app_assoc. reflexivity. Qed.

Lemma before_ge : Forall (fun w => E0 path <= fst w) (rest ++ rec_writes kk).
Proof.
  apply Forall_app. split; [exact Hr|]. apply rec_writes_ge; [|apply keylens]. change (k_seek kk) with e.
  pose proof (rsize_nonneg recs). lia.
Qed.
Lemma after_ge : Forall (fun w => e1 <= fst w) (rec_writes ks ++ rec_writes kf).
Proof.
  pose proof (closed_sizes path keys recs sbuf P He) as S. destruct keylens as (K1 & K2 & K3).
  apply Forall_app. split; (apply rec_writes_ge; [|assumption]).
  - change (k_seek ks) with e1. lia.
  - change (k_seek kf) with e2. lia.
Qed.

Lemma begun_refused done : crash all done -> ~ save_begun path done -> refused (disk_of done).
Proof.
  intros H NB. rewrite all_split in H. apply crash_app in H as [H|(d & -> & H)].
  - apply crash_refused with path (rest ++ rec_writes kk); [exact P|apply before_ge|exact H].
  - unfold save_begun in NB. rewrite (directory_at_ok path P) in NB.
    apply crash_cons in H as [->|[(a & c & E & ->)|(d' & -> & H)]].
    + rewrite app_nil_r. apply crash_refused with path (rest ++ rec_writes kk); [exact P|apply before_ge|apply crash_all].
    + contradiction NB. rewrite map_app. apply in_or_app. right. now left.
    + contradiction NB. rewrite map_app. apply in_or_app. right. now left.
Qed.

Lemma dir_pos : 0 < path_keylen path /\ 100 + path_keylen path < 100 + nbname path < E0 path.
Proof.
  pose proof (key_len_pos _ _ _ (names_ok_file path P)) as Q. fold (path_keylen path) in Q.
  destruct P as [Hs Hk]. pose proof (tstring_pos path Hs). unfold nbname, E0, nbname.
  change (tstring_sizeof []) with 1. lia.
Qed.

Lemma save_only b : In (100 + nbname path, b) all -> b = dirb d1.
Proof.
  pose proof dir_pos as DP. pose proof (E0_pos path P) as HE.
  assert (forall A z, Forall (fun w => z <= fst w) A -> E0 path <= z -> ~ In (100 + nbname path, b) A) as Far.
  { intros A z F Hz I. rewrite Forall_forall in F. specialize (F _ I). cbn [fst] in F. lia. }
  rewrite all_split. intros I. apply in_app_or in I as [I|I].
  - apply in_app_or in I as [I|I]; [|now apply (Far _ _ before_ge) in I; [|lia]].
    unfold create_log in I. cbn [In] in I. exfalso.
    destruct I as [I|[I|[I|[I|[]]]]]; apply (f_equal fst) in I; cbn [fst] in I; lia.
  - destruct I as [I|I]; [now apply (f_equal snd) in I|]. exfalso. apply in_app_or in I as [I|I].
    + apply (Far _ _ after_ge) in I; [assumption|]. pose proof (closed_sizes path keys recs sbuf P He). lia.
    + destruct I as [I|[I|[]]]; apply (f_equal fst) in I; cbn [fst] in I; lia.
Qed.

Lemma header_third A b : In (0, b) A -> header_rewrite_begun (create_log path ++ A).
Proof.
  intros I. unfold header_rewrite_begun. rewrite filter_app, app_length.
  assert (1 <= length (filter (fun w : Z * bytes => Z.eqb 0 (fst w)) A))%nat as H1.
  { assert (In (0, b) (filter (fun w : Z * bytes => Z.eqb 0 (fst w)) A)) as I' by (apply filter_In; split; [exact I|reflexivity]).
    destruct (filter _ A); [contradiction|cbn [length]; lia]. }
  assert (2 <= length (filter (fun w : Z * bytes => Z.eqb 0 (fst w)) (create_log path)))%nat as H2.
  { unfold create_log. cbn [filter fst]. change (0 =? 0) with true. cbv iota. cbn [length]. lia. }
  lia.
Qed.

Lemma window_crash done : crash all done -> save_complete path all done -> ~ header_rewrite_begun done ->
  exists x, disk_of done = base path (hdr0 path) d1 ++ repeat 0 12 ++ concat recs ++ rec kk ++ x.
Proof.
  intros H (b & I1 & I2) NH. rewrite (directory_at_ok path P) in I1, I2. apply save_only in I1. subst b.
  pose proof dir_pos as DP. pose proof (E0_pos path P) as HE.
  assert (exists l, done = (log ++ rec_writes kk ++ [(100 + nbname path, dirb d1)]) ++ l /\ Forall (fun w => e1 <= fst w) l) as (l & -> & F).
  { rewrite all_split in H. 
    assert (forall d, Forall (fun w => E0 path <= fst w) d -> ~ In (100 + nbname path, dirb d1) (create_log path ++ d)) as Far.
    { intros d F I. apply in_app_or in I as [I|I].
      - unfold create_log in I. cbn [In] in I. destruct I as [I|[I|[I|[I|[]]]]]; apply (f_equal fst) in I; cbn [fst] in I; lia.
      - rewrite Forall_forall in F. specialize (F _ I). cbn [fst] in F. lia. }
    apply crash_app in H as [H|(d & -> & H)].
    - exfalso. apply crash_app in H as [H|(d & -> & H)].
      + unfold create_log in H. revert I2. clear - H DP HE. intros I2.
        apply (crash_Forall (fun z => z < 100 + nbname path)) in H; [|repeat constructor; cbn [fst]; lia].
        rewrite Forall_forall in H. specialize (H _ I2). cbn [fst] in H. lia.
      + apply (crash_Forall (fun z => E0 path <= z)) in H; [|apply before_ge]. now apply Far in I2.
    - apply crash_cons in H as [->|[(a & c & E & ->)|(d' & -> & H)]].
      + exfalso. rewrite app_nil_r in I2. apply Far in I2; [assumption|apply before_ge].
      + apply in_app_or in I2 as [I2|[I2|[]]].
        * exfalso. apply Far in I2; [assumption|apply before_ge].
        * apply (f_equal snd) in I2. cbn [snd] in I2. subst a. exists []. split; [|constructor]. rewrite <- !app_assoc. reflexivity.
      + apply crash_app in H as [H|(l & -> & H)].
        * exists d'. split; [now rewrite <- !app_assoc|]. apply (crash_Forall (fun z => e1 <= z)) in H; [exact H|apply after_ge].
        * apply crash_cons in H as [->|[(a & c & E & ->)|(d & -> & H)]].
          -- exists (rec_writes ks ++ rec_writes kf). split; [rewrite app_nil_r, <- !app_assoc; reflexivity|apply after_ge].
          -- contradiction NH. rewrite <- (app_assoc (create_log path)). eapply header_third. apply in_or_app. right. right. apply in_or_app. right. now left.
          -- contradiction NH. rewrite <- (app_assoc (create_log path)). eapply header_third. apply in_or_app. right. right. apply in_or_app. right. now left. }
  rewrite disk_of_app, (disk_saved path keys recs log sbuf P L He), tail_snoc.
  pose proof (closed_sizes path keys recs sbuf P He) as S. pose proof (b_len path keys recs sbuf P He) as (L0 & L1 & _).
  destruct (fold_keeps l (base path (hdr0 path) d1 ++ repeat 0 12 ++ concat recs ++ rec kk) []) as (y & EY).
  { eapply Forall_impl; [|exact F]. intros w Hw. cbv beta in *. rewrite !zlen_app, L1, zlen_repeat.
    unfold rsize in *. lia. }
  rewrite app_nil_r in EY. rewrite EY. exists y. now rewrite <- !app_assoc.
Qed.

Lemma records_before : exists l, records (E0 path) (rest ++ rec_writes kk) l e1.
Proof.
  destruct L as [(rest' & E & R) _]. apply app_inv_head in E. subst rest'.
  destruct (rlog_records _ _ _ R) as (l & H). eexists. eapply records_app; [exact H|].
  pose proof (closed_sizes path keys recs sbuf P He) as S.
  unfold kkey. apply mk_records; [apply S|reflexivity].
Qed.
Lemma records_after : records e1 (rec_writes ks ++ rec_writes kf)
  ([(e1, khdr ks, k_buffer ks, key_seen ks)] ++ [(e2, khdr kf, k_buffer kf, key_seen kf)]) (e2 + k_nbytes kf).
Proof.
  pose proof (closed_sizes path keys recs sbuf P He) as (_ & _ & _ & _ & _ & _ & S1 & S2 & _).
  revert S1 S2. generalize e1. intros z S1 S2.
  apply (records_app z _ _ (z + k_nbytes (skey sbuf z))).
  - exact (mk_records si_kname si_title (bs "TList") 1 z sbuf S1 eq_refl).
  - revert S2. generalize (z + k_nbytes (skey sbuf z)). intros y S2.
    exact (mk_records path [] (bs "TFile") 1 y (seg_buf (y + (path_keylen path + 10))) S2 eq_refl).
Qed.

Lemma hdr1_len : zlen (hdrb h1) = 63.
Proof.
  pose proof (closed_sizes path keys recs sbuf P He) as (S0 & S1 & _).
  destruct (hdr1_ok path keys sbuf e P (proj2 S0) He) as (HO1 & HB1). exact (hdr_small_len _ HO1 HB1).
Qed.
Lemma dir1_len : zlen (dirb d1) = 48.
Proof.
  destruct (d1_ok path keys recs sbuf P He) as (DO & DB). exact (dir_small_len _ DO DB).
Qed.

Lemma all_settled : settled (E0 path) all.
Proof.
  pose proof dir_pos as (DP1 & DP2). pose proof (E0_pos path P) as HE. pose proof hdr1_len as LH. pose proof dir1_len as LD.
  destruct records_before as (l1 & R1). pose proof records_after as R2. rewrite all_split, <- app_assoc.
  revert LH LD R1 R2. generalize (rec_writes ks ++ rec_writes kf). intros C.
  generalize (hdrb h1) (dirb d1) (rest ++ rec_writes kk) (e2 + k_nbytes kf). intros hb db' B z2. generalize e1. intros z1 LH LD R1 R2. revert R2.
  match goal with |- records _ _ ?l _ -> _ => generalize l end. intros l2 R2.
  apply (settled_file (E0 path) (create_log path) B l1 z1 (100 + nbname path, db') C l2 z2); [lia| |exact R1| |exact R2|].
  - unfold create_log. constructor; [cbn [fst]; lia|]. constructor; [cbn [fst]; lia|]. constructor; [cbn [fst]; lia|].
    constructor; [cbn [fst]; lia|constructor].
  - cbn [fst snd]. rewrite LD. unfold E0 in *. lia.
  - constructor; [cbn [fst snd]; rewrite zlen_repeat; lia|]. constructor; [cbn [fst snd]; lia|constructor].
Qed.
End Done.

Lemma hdr1_fields path keys sbuf z : let kk := kkey path keys z in let e1 := z + k_nbytes kk in let ks := skey sbuf e1 in
  let e2 := e1 + k_nbytes ks in let kf := fkey path e2 in
  fh_end (hdr1 path keys sbuf z) = e2 + k_nbytes kf /\ fh_seekinfo (hdr1 path keys sbuf z) = e1 /\ fh_nbinfo (hdr1 path keys sbuf z) = k_nbytes ks /\
  fh_seekfree (hdr1 path keys sbuf z) = e2 /\ fh_nbfree (hdr1 path keys sbuf z) = k_nbytes kf.
Proof. cbv zeta. unfold hdr1. cbn [fh_end fh_seekinfo fh_nbinfo fh_seekfree fh_nbfree]. repeat split. Qed.

(** ** Finished sessions *)
Record closed (path : bytes) (ts : list table) (es : list (list (nat * event))) (f : file)
    (keys : list key) (sbuf : bytes) (recs : list bytes) (rest : list (Z * bytes)) : Prop := mkClosed {
  cd_path : path_ok path;
  cd_short : short_path path <-> nbname path <= 1000;
  cd_tables : Forall table_ok ts;
  cd_keys : Forall key_good keys;
  cd_nk : zlen keys < 2 ^ 31;
  cd_lay : lay_log path recs (create_log path ++ rest);
  cd_rest : Forall (fun w => E0 path <= fst w) rest;
  cd_end : fh_end (hdr1 path keys sbuf (E0 path + rsize recs)) <= kStartBigFile;
  cd_writes : writes_of f = (create_log path ++ rest) ++ close_log path keys sbuf (E0 path + rsize recs);
  cd_disk : f_disk f = disk_of ((create_log path ++ rest) ++ close_log path keys sbuf (E0 path + rsize recs));
  cd_stored : Forall2 (fun p k => stored path recs (tp_name p) (cols_of (tp_ops p)) k) (map calls ts) keys;
  cd_incr : incr keys;
  cd_events : es = map heard ts;
  cd_open : short_path path ->
    exists fo, open_file (f_disk f) = Ok fo /\ f_disk fo = f_disk f /\ f_hdr fo = hdr1 path keys sbuf (E0 path + rsize recs) /\
    f_spans fo = [mkSeg (fh_end (hdr1 path keys sbuf (E0 path + rsize recs))) kStartBigFile] /\
    d_keys (f_dir fo) = map key_listed keys /\ shows_tables fo ts }.

Lemma session_is_closed path ts es f keys sis recs log sis' sbuf : user_path path -> Forall table_ok ts ->
  closed_session real_db path (map calls ts) es keys sis recs log sis' sbuf f ->
  exists keys sbuf recs rest, closed path ts es f keys sbuf recs rest.
Proof.
  intros U T C. destruct (user_path_ok path U) as [P SP].
  destruct C as [C1 C2 C3 C4 C5 C6 C7 C8 C9 C10 C11 C12].
  pose proof C2 as [(rest & -> & R) _]. pose proof (rlog_ge _ _ _ R) as [_ F].
  exists keys, sbuf, recs, rest. constructor; try assumption.
  - rewrite C11. reflexivity.
  - rewrite C11. reflexivity.
  - apply C1.
  - apply C1. exact C12.
  - apply events_heard. apply C1.
  - intros Sh. apply SP in Sh.
    destruct (session_shows real_db path ts es keys sis recs (create_log path ++ rest) sis' sbuf f real_db_ok P Sh T) as (fo & H); [|eauto].
    now constructor.
Qed.

Lemma finished_closed path ts es f : finished path ts es f -> exists keys sbuf recs rest, closed path ts es f keys sbuf recs rest.
Proof.
  intros (U & T & N & S & D). destruct (user_path_ok path U) as [P SP].
  destruct (session_closed real_db path (map calls ts) f es real_db_ok P) as (keys & sis & recs & log & sis' & sbuf & C).
  { apply Forall_map. eapply Forall_impl; [|exact T]. apply table_tprog. }
  { rewrite map_map. exact N. }
  { exact S. }
  { exact D. }
  exact (session_is_closed _ _ _ _ _ _ _ _ _ _ U T C).
Qed.

Section Facts.
Variables (path : bytes) (ts : list table) (es : list (list (nat * event))) (f : file)
  (keys : list key) (sbuf : bytes) (recs : list bytes) (rest : list (Z * bytes)).
Hypothesis (C : closed path ts es f keys sbuf recs rest).
Notation e := (E0 path + rsize recs).
Notation kk := (kkey path keys e).
Notation e1 := (e + k_nbytes kk).
Notation ks := (skey sbuf e1).
Notation e2 := (e1 + k_nbytes ks).
Notation kf := (fkey path e2).
Notation h1 := (hdr1 path keys sbuf e).
Notation d1 := (dir1 path keys e).
Notation all := ((create_log path ++ rest) ++ close_log path keys sbuf e).

Lemma first_record_ok : first_record path = E0 path.
Proof. unfold first_record. rewrite (directory_at_ok path (cd_path _ _ _ _ _ _ _ _ C)). unfold E0. lia. Qed.

Lemma fact_refused done : crash (writes_of f) done -> ~ save_begun path done -> refused (disk_of done).
Proof. rewrite (cd_writes _ _ _ _ _ _ _ _ C). destruct C. now apply begun_refused. Qed.

Lemma create_low : path_ok path -> Forall (fun w => 0 <= fst w < E0 path) (create_log path).
Proof.
  intros P. pose proof (E0_pos path P) as HE. pose proof (dir_pos path P) as DP. unfold create_log.
  constructor; [cbn [fst]; lia|]. constructor; [cbn [fst]; lia|]. constructor; [cbn [fst]; lia|]. constructor; [cbn [fst]; lia|constructor].
Qed.

Lemma all_pos : Forall (fun w => 0 <= fst w) all.
Proof.
  destruct C as [P SP T G Hn L Hr He _ _ _ _ _ _]. pose proof (E0_pos path P) as HE. pose proof (create_low P) as F0.
  pose proof (closed_sizes path keys recs sbuf P He) as (S0 & S1 & _). pose proof (dir_pos path P) as DP.
  pose proof (before_ge path keys sbuf recs rest P Hr) as F1. pose proof (after_ge path keys sbuf recs P He) as F2.
  rewrite all_split. revert F1 F2 S1. generalize (rest ++ rec_writes kk). generalize (rec_writes ks ++ rec_writes kf). generalize e1.
  intros z B A F1 F2 S1. apply Forall_app. split; [apply Forall_app; split|constructor; [|apply Forall_app; split]].
  - eapply Forall_impl; [|exact F0]. cbv beta. lia.
  - eapply Forall_impl; [|exact F1]. cbv beta. lia.
  - cbn [fst]. lia.
  - eapply Forall_impl; [|exact F2]. cbv beta. lia.
  - constructor; [cbn [fst]; lia|]. constructor; [cbn [fst]; lia|constructor].
Qed.

Lemma fact_end : zlen (f_disk f) = e2 + k_nbytes kf /\ e2 + k_nbytes kf <= 2000000000.
Proof.
  pose proof (cd_disk _ _ _ _ _ _ _ _ C) as CD. destruct C as [P SP T G Hn L Hr He _ _ _ _ _ _].
  destruct (disk_closed path keys recs (create_log path ++ rest) sbuf P L He) as [_ LD].
  rewrite CD. split; [exact LD|].
  pose proof (closed_sizes path keys recs sbuf P He) as (_ & _ & _ & _ & S4 & _). exact S4.
Qed.

Lemma fact_window done : short_path path -> crash (writes_of f) done -> save_complete path (writes_of f) done -> ~ header_rewrite_begun done ->
  exists fo, open_file (disk_of done) = Ok fo /\ shows_tables fo ts.
Proof.
  intros Sh. pose proof fact_end as (FE1 & FE2). pose proof all_pos as AP.
  rewrite (cd_writes _ _ _ _ _ _ _ _ C). pose proof (cd_disk _ _ _ _ _ _ _ _ C) as CD.
  intros H SC NH. pose proof (crash_len _ _ AP H) as LB. rewrite <- CD, FE1 in LB.
  destruct C as [P SP T G Hn L Hr He _ _ ST IN _ _].
  destruct (window_crash path keys sbuf recs rest P L Hr He done H SC NH) as (x & E).
  rewrite E in LB |- *.
  pose proof (opens_window path keys recs sbuf P G Hn He x (proj1 SP Sh)) as OW.
  pose proof (b_len path keys recs sbuf P He) as (_ & L1 & _).
  revert E LB OW L1. generalize (base path (hdr0 path) d1). intros b1 E LB OW L1.
  eexists. split; [apply OW; lia|].
  eapply (records_read path ts keys recs); [exact P|exact T| | |exact ST|exact IN|reflexivity|reflexivity|].
  - apply (Z.le_lt_trans _ _ _ LB), (Z.le_lt_trans _ _ _ FE2). lia.
  - exists (b1 ++ repeat 0 12), (rec kk ++ x). split; [now rewrite <- !app_assoc|]. rewrite zlen_app, L1, zlen_repeat. lia.
  - intros s CT. unfold sis_for. destruct (w_class (cs_ty s)) as [c|]; [|exact I]. destruct (cs_ty s); try exact I.
    intros si Hsi. discriminate Hsi.
Qed.

(** The last write but one blanks the header. *)
Lemma fact_blank done w : writes_of f = done ++ [w] -> open_file (disk_of done) = Panic.
Proof.
  rewrite (cd_writes _ _ _ _ _ _ _ _ C). destruct C as [P SP T G Hn L Hr He _ _ ST IN _ _].
  pose proof (zeroed_panics path keys recs (create_log path ++ rest) sbuf P L He) as ZP. intros H.
  assert (done = (((create_log path ++ rest) ++ rec_writes kk ++ [(100 + nbname path, dirb d1)]) ++ rec_writes ks) ++ rec_writes kf ++ [(0, repeat 0 100)]) as ->; [|rewrite app_assoc; exact ZP].
  apply (f_equal (@removelast _)) in H. rewrite removelast_last in H. rewrite <- H. rewrite all_split.
  rewrite <- (removelast_last ((((create_log path ++ rest) ++ rec_writes kk ++ [(100 + nbname path, dirb d1)]) ++ rec_writes ks) ++ rec_writes kf ++ [(0, repeat 0 100)]) (0, hdrb h1)) at 1.
  f_equal. rewrite <- !app_assoc. reflexivity.
Qed.

Lemma filter_all (z : Z) (l : list (Z * bytes)) : Forall (fun w => z <= fst w) l -> filter (fun w => Z.leb z (fst w)) l = l.
Proof. induction 1 as [|w l H _ IH]; cbn [filter]; [reflexivity|]. destruct (Z.leb_spec z (fst w)); [now rewrite IH|lia]. Qed.
Lemma filter_none (z : Z) (l : list (Z * bytes)) : Forall (fun w => fst w < z) l -> filter (fun w => Z.leb z (fst w)) l = [].
Proof. induction 1 as [|w l H _ IH]; cbn [filter]; [reflexivity|]. destruct (Z.leb_spec z (fst w)); [lia|exact IH]. Qed.

Lemma records_puts p ws l q : records p ws l q -> ws = puts l.
Proof. induction 1 as [|p h b k ws l q R H IH]; [reflexivity|]. cbn [puts flat_map app]. now rewrite IH. Qed.

Lemma fact_records : exists l, record_writes path (writes_of f) = puts l /\
  records (first_record path) (puts l) l (zlen (f_disk f)).
Proof.
  pose proof first_record_ok as FR. pose proof fact_end as (FE1 & _). rewrite (cd_writes _ _ _ _ _ _ _ _ C), FR, FE1.
  destruct C as [P SP T G Hn L Hr He _ _ ST IN _ _]. pose proof (create_low P) as F0.
  destruct (records_before path keys sbuf recs rest P L He) as (l1 & R1).
  pose proof (records_after path keys sbuf recs P He) as R2.
  pose proof (before_ge path keys sbuf recs rest P Hr) as F1. pose proof (after_ge path keys sbuf recs P He) as F2.
  pose proof (closed_sizes path keys recs sbuf P He) as (S0 & S1 & _). pose proof (dir_pos path P) as DP. pose proof (E0_pos path P) as HE.
  rewrite all_split. unfold record_writes. rewrite FR. revert R1 R2 F1 F2 S1.
  match goal with |- _ -> records _ _ ?l2 ?q -> _ => generalize l2 q end. intros l2 q.
  generalize (rest ++ rec_writes kk). generalize (rec_writes ks ++ rec_writes kf). generalize e1.
  intros z B A R1 R2 F1 F2 S1. pose proof (records_app _ _ _ _ _ _ _ R1 R2) as R. exists (l1 ++ l2).
  pose proof (records_puts _ _ _ _ R) as EP. rewrite <- EP. split; [|exact R].
  rewrite !filter_app. cbn [filter]. rewrite filter_app. rewrite (filter_none _ (create_log path)); [|eapply Forall_impl; [|exact F0]; cbv beta; lia].
  rewrite (filter_all _ A F1). rewrite (filter_all _ B); [|eapply Forall_impl; [|exact F2]; cbv beta; lia].
  cbn [fst]. destruct (Z.leb_spec (E0 path) (100 + nbname path)); [lia|].
  rewrite filter_none; [now rewrite app_nil_r|]. constructor; [cbn [fst]; lia|]. constructor; [cbn [fst]; lia|constructor].
Qed.

Lemma fact_kept done more w : writes_of f = done ++ more -> In w done -> first_record path <= fst w -> snd w <> [] ->
  on_disk (disk_of done) (fst w) (snd w).
Proof.
  rewrite first_record_ok, (cd_writes _ _ _ _ _ _ _ _ C). destruct C as [P SP T G Hn L Hr He _ _ ST IN _ _].
  pose proof (all_settled path keys sbuf recs rest P L He) as S. pose proof (E0_pos path P) as HE.
  intros E I Hw Hn'. rewrite E in S. apply (settled_keeps (E0 path) done more); auto. lia.
Qed.

Lemma on_disk_join d p a b : on_disk d p a -> on_disk d (p + zlen a) b -> on_disk d p (a ++ b).
Proof.
  intros (x & y & -> & Lx) (x' & y' & E & L'). rewrite app_assoc in E. apply app_split in E as [(z & -> & ->)|(z & E & E2)].
  - rewrite !zlen_app in L'. assert (z = []) as -> by (apply zlen_0_nil; lia).
    exists x, y'. rewrite <- app_assoc. auto.
  - assert (z = []) as ->. { apply zlen_0_nil. apply (f_equal zlen) in E. rewrite !zlen_app in E. lia. }
    cbn [app] in E2. subst y. exists x, y'. rewrite <- app_assoc. auto.
Qed.

Lemma records_in p ws l q a h b k : records p ws l q -> In (a, h, b, k) l -> record a h b k /\ p <= a /\ a + zlen h + zlen b <= q.
Proof.
  induction 1 as [|p h' b' k' ws l q R H IH]; [contradiction|]. pose proof (zlen_nonneg h'). pose proof (zlen_nonneg b').
  destruct (records_ge _ _ _ _ H) as [Hq _]. intros [E|I].
  - injection E as <- <- <- <-. split; [exact R|lia].
  - destruct (IH I) as (R' & B1 & B2). split; [exact R'|lia].
Qed.
Lemma puts_in l a h b k : In (a, h, b, k) l -> In (a, h) (puts l) /\ In (a + zlen h, b) (puts l).
Proof.
  intros I. unfold puts. split; apply in_flat_map; exists (a, h, b, k); (split; [exact I|]); [now left|right; now left].
Qed.

Lemma fact_record l a h b k : record_writes path (writes_of f) = puts l -> records (first_record path) (puts l) l (zlen (f_disk f)) ->
  In (a, h, b, k) l -> h <> [] -> record a h b k /\ first_record path <= a /\ a + zlen h + zlen b <= zlen (f_disk f) /\
    on_disk (f_disk f) a (h ++ b) /\ key_bytes (f_disk f) k = Ok b.
Proof.
  intros E R I Hh. destruct (records_in _ _ _ _ _ _ _ _ R I) as (Hr & Ha & Hb). destruct (puts_in _ _ _ _ _ I) as [I1 I2].
  rewrite <- E in I1, I2. unfold record_writes in I1, I2. apply filter_In in I1 as [I1 G1]. apply filter_In in I2 as [I2 G2].
  cbn [fst] in G1, G2. apply Z.leb_le in G1, G2.
  assert (forall w, In w (writes_of f) -> first_record path <= fst w -> snd w <> [] -> on_disk (f_disk f) (fst w) (snd w)) as K.
  { intros w Iw Gw Nw. rewrite (cd_disk _ _ _ _ _ _ _ _ C), <- (cd_writes _ _ _ _ _ _ _ _ C).
    apply (fact_kept (writes_of f) [] w); auto. now rewrite app_nil_r. }
  assert (on_disk (f_disk f) a (h ++ b)) as OD.
  { pose proof (K _ I1 G1 Hh) as K1. cbn [fst snd] in K1. destruct b as [|b0 b']; [rewrite app_nil_r; exact K1|].
    apply on_disk_join; [exact K1|]. apply (K _ I2 G2). discriminate. }
  split; [exact Hr|]. split; [exact Ha|]. split; [exact Hb|]. split; [exact OD|].
  pose proof fact_end as (FE1 & FE2). pose proof (E0_pos path (cd_path _ _ _ _ _ _ _ _ C)) as HE. rewrite first_record_ok in Ha.
  destruct Hr as (w & x & -> & _ & _ & S1 & S2 & S3 & S4).
  unfold key_bytes. rewrite S1, S2, S3, S4. pose proof (zlen_nonneg b). pose proof (zlen_nonneg (w ++ x)).
  revert FE1 FE2 Hb. generalize (e2 + k_nbytes kf). intros q FE1 FE2 Hb.
  destruct (Z.eqb_spec (zlen b) (zlen (w ++ x) + zlen b - zlen (w ++ x))); [|lia].
  rewrite u64_add_small by lia. cbn [rbind].
  apply read_at_seg; [|reflexivity|lia]. destruct OD as (x' & y' & -> & L'). exists (x' ++ w ++ x), y'.
  split; [now rewrite <- !app_assoc|]. rewrite zlen_app, L'. reflexivity.
Qed.

Lemma record_nonempty a h b k : record a h b k -> h <> [].
Proof.
  intros (w & x & E & D & _) ->. symmetry in E. apply app_eq_nil in E as [-> ->].
  specialize (D [] [] 0 []). vm_compute in D. discriminate.
Qed.

Lemma fact_close : short_path path -> exists fo, open_file (f_disk f) = Ok fo /\
  fh_end (f_hdr fo) = zlen (f_disk f) /\
  f_spans fo = [mkSeg (zlen (f_disk f)) 2000000000] /\
  first_record path <= fh_seekinfo (f_hdr fo) /\
  fh_seekinfo (f_hdr fo) + fh_nbinfo (f_hdr fo) = fh_seekfree (f_hdr fo) /\
  fh_seekfree (f_hdr fo) + fh_nbfree (f_hdr fo) = zlen (f_disk f) /\
  (exists h b k, record (fh_seekinfo (f_hdr fo)) h b k /\ k_class k = bs "TList" /\ k_name k = bs "StreamerInfo" /\
     fh_nbinfo (f_hdr fo) = zlen h + zlen b /\ on_disk (f_disk f) (fh_seekinfo (f_hdr fo)) (h ++ b)) /\
  (exists h b k, record (fh_seekfree (f_hdr fo)) h b k /\ k_class k = bs "TFile" /\ k_name k = path /\
     fh_nbfree (f_hdr fo) = zlen h + zlen b /\ on_disk (f_disk f) (fh_seekfree (f_hdr fo)) (h ++ b)).
Proof.
  intros Sh. destruct (cd_open _ _ _ _ _ _ _ _ C Sh) as (fo & O1 & O2 & O3 & O4 & _). exists fo. split; [exact O1|].
  pose proof fact_end as (FE1 & FE2). pose proof first_record_ok as FR. pose proof (cd_disk _ _ _ _ _ _ _ _ C) as CD.
  destruct (hdr1_fields path keys sbuf e) as (F1 & F2 & F3 & F4 & F5).
  rewrite O4, O3, F1, F2, F3, F4, F5, FE1, FR.
  destruct C as [P SP T G Hn L Hr He _ _ ST IN _ _].
  pose proof (closed_sizes path keys recs sbuf P He) as (S0 & S1 & S2 & S3 & S4 & G1 & G2 & G3 & L1 & L2 & L3).
  destruct (closed_segs path keys recs (create_log path ++ rest) sbuf P L He) as (_ & _ & _ & _ & SS & SF).
  rewrite <- CD in SS, SF. clear CD FE1 O1 O2 O3 O4 F1 F2 F3 F4 F5 ST IN L G Hn.
  split; [reflexivity|]. split; [reflexivity|]. split; [lia|]. split; [reflexivity|]. split; [reflexivity|]. 
  pose proof (records_after path keys sbuf recs P He) as R2. clear He.
  revert S1 S2 S3 S4 G1 G2 G3 L1 L2 L3 SS SF R2. generalize e1. intros z1.
  intros S1 S2 S3 S4 G1 G2 G3 L1 L2 L3 SS SF R2.
  destruct (key_good_hdr _ G2) as [K2 _]. destruct (key_good_hdr _ G3) as [K3 _].
  split.
  - exists (khdr (skey sbuf z1)), (k_buffer (skey sbuf z1)), (key_seen (skey sbuf z1)).
    split; [|split; [reflexivity|split; [reflexivity|split; [|exact SS]]]].
    + now inversion R2.
    + rewrite <- L2. unfold rec. now rewrite zlen_app.
  - revert S2 S3 S4 G3 L3 SF R2 K3. generalize (z1 + k_nbytes (skey sbuf z1)). intros z2 S2 S3 S4 G3 L3 SF R2 K3.
    exists (khdr (fkey path z2)), (k_buffer (fkey path z2)), (key_seen (fkey path z2)).
    split; [|split; [reflexivity|split; [reflexivity|split; [|exact SF]]]].
    + eapply (records_in _ _ _ _ _ _ _ _ R2). right. now left.
    + rewrite <- L3. unfold rec. now rewrite zlen_app.
Qed.
End Facts.


Lemma listed_same k : k_name (key_listed k) = k_name k /\ k_cycle (key_listed k) = k_cycle k.
Proof. unfold key_listed, fix_class, key_seen. destruct (beqb _ _); split; reflexivity. Qed.

(** A path that is too long. *)
Lemma open_long path D h d pad : path_ok path -> 1000 < nbname path -> 76 <= zlen D -> fhdr_ok h -> seg D 0 (hdrb h) ->
  fh_version h = 63002 -> fh_begin h = 100 -> fh_nbname h = nbname path ->
  E0 path <= fh_end h < 2 ^ 63 -> dir_ok d -> dir_big d = false -> d_nbname d = nbname path ->
  seg D 100 (name_rec path ++ dirb d ++ pad) -> zlen pad = 12 -> open_file D = Err EDirInfo.
Proof.
  intros P PN SZ HO HS V B N HE DO DB DN DS LP.
  destruct (hdrb_ok h HO) as (_ & _ & RH). pose proof (hdrb_short h HO) as HL.
  unfold open_file.
  destruct HS as (a & c & ED & LA). apply zlen_0_nil in LA. subst a. cbn [app] in ED.
  assert (exists x y, c = x ++ y /\ zlen (hdrb h ++ x) = 76) as (x & y & Ec & LX).
  { rewrite ED, zlen_app in SZ. destruct (zsub_split c 0 (76 - zlen (hdrb h))) as (a' & b' & E & LA'); [lia|lia|lia|].
    apply zlen_0_nil in LA'. subst a'. cbn [app] in E. eexists _, b'. split; [exact E|].
    rewrite zlen_app, zsub_length by lia. lia. }
  rewrite (read_at_seg D 0 76 (hdrb h ++ x)); [|exists [], y; split; [rewrite ED, Ec; now rewrite <- app_assoc|reflexivity]|exact LX|lia].
  cbn [rbind]. rewrite (reads_rrun _ _ _ _ _ RH). cbn [rbind].
  rewrite (read_dir_gen D h d path pad) by (assumption || lia).
  destruct (Z.ltb_spec 1000 (nbname path)); [reflexivity|lia].
Qed.

Lemma fact_long path ts es f keys sbuf recs rest : closed path ts es f keys sbuf recs rest ->
  ~ short_path path -> open_file (f_disk f) = Err EDirInfo.
Proof.
  intros C NS. pose proof (fact_end _ _ _ _ _ _ _ _ C) as FE. destruct C as [cd_path0 cd_short0 cd_tables0 cd_keys0 cd_nk0 cd_lay0 cd_rest0 cd_end0 cd_writes0 cd_disk0 cd_stored0 cd_incr0 cd_events0 cd_open0]. rewrite cd_disk0 in *.
  pose proof (closed_segs path keys recs (create_log path ++ rest) sbuf cd_path0 cd_lay0 cd_end0) as S.
  pose proof (closed_sizes path keys recs sbuf cd_path0 cd_end0) as Z.
  cbv zeta in S, Z. destruct S as (S0 & S1 & _).
  destruct (d1_ok path keys recs sbuf cd_path0 cd_end0) as (DO & DB).
  destruct (hdr1_ok path keys sbuf (E0 path + rsize recs) cd_path0) as (HO1 & HB1); [apply Z|exact cd_end0|].
  pose proof (hdr1_fields path keys sbuf (E0 path + rsize recs)) as HF. cbv zeta in HF. destruct HF as (HF & _).
  assert (V : fh_version (hdr1 path keys sbuf (E0 path + rsize recs)) = 63002) by reflexivity.
  assert (B : fh_begin (hdr1 path keys sbuf (E0 path + rsize recs)) = 100) by reflexivity.
  assert (N : fh_nbname (hdr1 path keys sbuf (E0 path + rsize recs)) = nbname path) by reflexivity.
  assert (DN : d_nbname (dir1 path keys (E0 path + rsize recs)) = nbname path) by reflexivity.
  assert (LN : 1000 < nbname path) by (destruct (Z_lt_le_dec 1000 (nbname path)) as [x|x]; [exact x|now apply cd_short0 in x]).
  rewrite <- HF in FE, Z.
  eapply (open_long path _ _ _ (repeat 0 12)); try eassumption; try lia; try reflexivity.
Qed.

(** A file that does not start with [root]. *)
Lemma foreign_panics d : 76 <= zlen d -> firstn 4 d <> bs "root" -> open_file d = Panic.
Proof.
  intros L N. do 4 (destruct d as [|? d]; [vm_compute in L; congruence|]). cbn [firstn] in N.
  set (l := _ :: _) in *.
  destruct (zsub_split l 0 76) as (a & c & E & LA); [lia|lia|lia|]. apply zlen_0_nil in LA. subst a. cbn [app] in E.
  assert (LZ : zlen (zsub l 0 76) = 76) by (apply zsub_length; lia).
  unfold open_file. rewrite (read_at_seg l 0 76 (zsub l 0 76)); [|exists [], c; split; [exact E|reflexivity]|exact LZ|lia].
  cbn [rbind]. revert E LZ. generalize (zsub l 0 76) as b. intros b E LZ. unfold l in E.
  do 4 (destruct b as [|? b]; [vm_compute in LZ; congruence|]). cbn [app] in E. injection E as -> -> -> -> _.
  match goal with |- context[rrun 0 fhdr_unmarshal ?x] => assert (rrun 0 fhdr_unmarshal x = Panic) as ->; [|reflexivity] end.
  unfold rrun, fhdr_unmarshal, read_array_u8. unfold bind at 1. unfold extract. cbn [rp rc r_new].
  match goal with |- context[0 + 4 <=? zlen ?x] => replace (0 + 4 <=? zlen x) with true by (symmetry; apply Z.leb_le; lia) end.
  cbn [Z.leb Z.compare andb]. match goal with |- context[zsub ?x 0 4] => change (zsub x 0 4) with (firstn 4 x) end. cbn [firstn].
  match goal with |- context[beqb ?x root_magic] => replace (beqb x root_magic) with false by (symmetry; apply beqb_neq; exact N) end.
  reflexivity.
Qed.
