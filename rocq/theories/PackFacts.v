(** Facts about compressed records, and about reading with and without decoders. *)
From Verif Require Import FileLay FileOpen ColBack SpecPack TermIter.
From Verif Require Export Derive.

(** ** Blocks *)
Section Decoders.
Context {LIB : decoders}.

Lemma read_exact_all b : read_exact (zlen b) b = Ok b.
Proof. unfold read_exact. rewrite Z.ltb_irrefl. f_equal. rewrite <- (app_nil_r b) at 1. apply zsub_head. Qed.
Lemma le3_value n : 0 <= n < 2 ^ 24 -> n mod 256 + 256 * ((n / 256) mod 256) + 65536 * ((n / 65536) mod 256) = n.
Proof.
  intros H. change 65536 with (256 * 256). rewrite <- (Z.div_div n 256 256) by lia.
  pose proof (Z.div_mod n 256 ltac:(lia)). pose proof (Z.div_mod (n / 256) 256 ltac:(lia)).
  assert (n / 256 / 256 < 256) by (rewrite Z.div_div by lia; apply Z.div_lt_upper_bound; lia).
  assert (0 <= n / 256 / 256) by (rewrite Z.div_div by lia; apply Z.div_pos; lia).
  rewrite (Z.mod_small (n / 256 / 256)) by lia. lia.
Qed.
Lemma block_parts t1 t2 v n body : firstn 9 (block [t1; t2] v n body) = [t1; t2; v] ++ le3 (zlen body) ++ le3 n /\
  skipn 9 (block [t1; t2] v n body) = body /\ zlen (block [t1; t2] v n body) = 9 + zlen body.
Proof. unfold block, le3. repeat split. rewrite !zlen_def, !app_length. cbn [length]. lia. Qed.
Lemma block_tgt t1 t2 v n body : 0 <= n < 2 ^ 24 -> tgt_size (firstn 9 (block [t1; t2] v n body)) = n.
Proof. intros H. unfold block, le3, tgt_size. cbn [app firstn nth]. now apply le3_value. Qed.
Lemma decompress_packed content stored : 0 < zlen content < 2 ^ 24 -> packed content stored -> decompress (zlen content) stored = Ok content.
Proof.
  intros H P. unfold decompress.
  destruct P as [v body D|v body D|v sum body LS D]; cbn [decompress_loop]; (destruct (Z.leb_spec (zlen content) 0); [lia|]).
  - change (bs "ZL") with [90; 76]. destruct (block_parts 90 76 v (zlen content) body) as (_ & E & LB). rewrite E, LB. pose proof (zlen_nonneg body).
    destruct (Z.ltb_spec (9 + zlen body) 9); [lia|]. cbv zeta.
    change (kind_of (firstn 9 (block [90; 76] v (zlen content) body))) with ZZlib. cbn iota. rewrite D. cbn [rbind]. apply read_exact_all.
  - change (bs "XZ") with [88; 90]. destruct (block_parts 88 90 v (zlen content) body) as (_ & E & LB).
    pose proof (block_tgt 88 90 v (zlen content) body ltac:(lia)) as T. rewrite E, LB, T. pose proof (zlen_nonneg body).
    destruct (Z.ltb_spec (9 + zlen body) 9); [lia|]. cbv zeta.
    change (kind_of (firstn 9 (block [88; 90] v (zlen content) body))) with ZLzma. cbn iota. rewrite D. cbn [rbind]. rewrite read_exact_all. cbn [rbind].
    assert (exists f, length (block [88; 90] v (zlen content) body) = S f) as (f & ->)
      by (rewrite zlen_def in LB; destruct (length (block [88; 90] v (zlen content) body)) as [|f]; [lia|now exists f]).
    cbn [decompress_loop]. destruct (Z.leb_spec (zlen content) (0 + zlen content)); [reflexivity|lia].
  - change (bs "L4") with [76; 52]. destruct (block_parts 76 52 v (zlen content) (sum ++ body)) as (_ & E & LB). rewrite E, LB.
    assert (ZS : zlen sum = 8) by (rewrite zlen_def; lia). pose proof (zlen_nonneg body). rewrite zlen_app, ZS.
    destruct (Z.ltb_spec (9 + (8 + zlen body)) 9); [lia|]. cbv zeta.
    change (kind_of (firstn 9 (block [76; 52] v (zlen content) (sum ++ body)))) with ZLz4. cbn iota.
    destruct (Z.ltb_spec (8 + zlen body) 8); [lia|]. rewrite <- LS, skipn_app, skipn_all, Nat.sub_diag, skipn_O. cbn [app]. rewrite D. cbn [rbind]. f_equal.
    rewrite (zlen_def content), Nat2Z.id. rewrite firstn_app, firstn_all, Nat.sub_diag, firstn_O. apply app_nil_r.
Qed.
Lemma key_bytes_plain d k content : record_of d k (zlen content) content -> key_bytes d k = Ok content.
Proof.
  intros (H1 & H2 & H3 & H4 & H5 & a & c & E & LA & HD). unfold key_bytes.
  destruct (Z.eqb_spec (k_objlen k) (k_nbytes k - k_keylen k)); [|lia].
  assert (S : seg d (k_seek k + k_keylen k) content) by (exists a, c; auto). pose proof (seg_bound _ _ _ S). pose proof (zlen_nonneg content).
  rewrite u64_add_small by lia. cbn [rbind]. now apply read_at_ok.
Qed.
Lemma key_bytes_packed d k content stored : 0 < zlen content < 2 ^ 24 -> zlen stored <> zlen content -> packed content stored ->
  record_of d k (zlen content) stored -> key_bytes d k = Ok content.
Proof.
  intros H N P (H1 & H2 & H3 & H4 & H5 & a & c & E & LA & HD). unfold key_bytes.
  destruct (Z.eqb_spec (k_objlen k) (k_nbytes k - k_keylen k)); [lia|].
  assert (S : seg d (k_seek k + k_keylen k) stored) by (exists a, c; auto). pose proof (seg_bound _ _ _ S). pose proof (zlen_nonneg stored).
  destruct (Z.ltb_spec (k_nbytes k - k_keylen k) (-2147483648)); [lia|]. destruct (Z.ltb_spec (k_objlen k) 0); [lia|].
  rewrite u64_add_small by lia. cbn [rbind]. unfold u64_sub. rewrite !to_u64_small by lia. destruct (Z.leb_spec (k_keylen k) (k_nbytes k)); [|lia].
  cbn [rbind]. rewrite (read_at_ok d _ _ stored S) by lia. cbn [rbind]. rewrite H3. now apply decompress_packed.
Qed.

(** ** Baskets with the same contents *)
Lemma alike_chunk d1 d2 sis b1 b2 p1 p2 size l : alike_basket d1 d2 p1 p2 -> 0 < snd p1 ->
  br_elem b1 = br_elem b2 -> br_name b1 = br_name b2 -> b_entries (br_core b1) = b_entries (br_core b2) ->
  basket_chunk d1 sis b1 (fst p1) (snd p1) size l = basket_chunk d2 sis b2 (fst p2) (snd p2) size l.
Proof.
  intros [_ H] P EE EN EC. destruct (H P) as (u1 & u2 & k1 & k2 & c & R1 & R2 & U1 & U2 & B1 & B2 & K & O & N & LA & NS).
  unfold basket_chunk. rewrite R1, R2. cbn [unwrap rbind]. rewrite U1, U2. cbn [unwrap rbind]. rewrite NS.
  unfold raw_data. rewrite B1, B2. cbn [unwrap rbind]. rewrite LA, K, O, N.
  assert (ES : forall e, br_streamer sis b1 e = br_streamer sis b2 e) by (intros e; unfold br_streamer; now rewrite EN).
  rewrite EE, EC. destruct (br_elem b2) as [e|]; [rewrite (ES e)|]; reflexivity.
Qed.

Lemma alike_rest d1 d2 sis b1 b2 : br_elem b1 = br_elem b2 -> br_name b1 = br_name b2 -> b_entries (br_core b1) = b_entries (br_core b2) ->
  forall s1 l1 s2 l2 sz ls, length s1 = length s2 -> length l1 = length l2 ->
  Forall2 (alike_basket d1 d2) (combine s1 l1) (combine s2 l2) ->
  res_map (fun '(seek, len, size, l) => basket_chunk d1 sis b1 seek len size l) (filter (fun '(_, len, _, _) => 0 <? len) (zip4 s1 l1 sz ls)) =
  res_map (fun '(seek, len, size, l) => basket_chunk d2 sis b2 seek len size l) (filter (fun '(_, len, _, _) => 0 <? len) (zip4 s2 l2 sz ls)).
Proof.
  intros EE EN EC. induction s1 as [|x1 s1 IH]; intros [|y1 l1] [|x2 s2] [|y2 l2] sz ls L1 L2 F; cbn [length] in L1, L2; try discriminate; try reflexivity.
  cbn [combine] in F. inversion F as [|? ? ? ? F1 F2]; subst. destruct sz as [|z sz]; [reflexivity|]. destruct ls as [|l ls]; [reflexivity|].
  cbn [zip4 filter]. specialize (IH l1 s2 l2 sz ls ltac:(lia) ltac:(lia) F2). pose proof F1 as [P _]. cbn [snd] in P.
  destruct (Z.ltb_spec 0 y1), (Z.ltb_spec 0 y2); try (exfalso; intuition lia); [|exact IH]. cbn [res_map]. rewrite IH.
  pose proof (alike_chunk d1 d2 sis b1 b2 (x1, y1) (x2, y2) z l F1 ltac:(assumption) EE EN EC) as C. cbn [fst snd] in C. now rewrite C.
Qed.
Lemma alike_buffer d1 d2 sis b1 b2 : alike d1 d2 b1 b2 -> baskets_buffer d1 sis b1 = baskets_buffer d2 sis b2.
Proof.
  intros [top c1 c2 e subs1 subs2 ls bks EN EC L1 L2 F _]. unfold baskets_buffer, sizes_for, leaves_for, embedded_chunk.
  cbn [br_core br_leaves br_baskets br_elem]. rewrite L1.
  assert (ES : forall e, br_streamer sis (Br top c1 e subs1 ls bks) = br_streamer sis (Br top c2 e subs2 ls bks)).
  { intros e'. unfold br_streamer, br_name. cbn [br_core]. now rewrite EN. }
  match goal with |- (sz <-? ?a ;; _) = _ => destruct a as [sz| | | |]; try reflexivity end. cbn [rbind].
  match goal with |- (l <-? ?a ;; _) = _ => destruct a as [lv| | | |]; try reflexivity end. cbn [rbind].
  assert (EM : match e with
       | None => fun k : basket => Ok [Regular (bk_nevbuf k) 1 (skipn (Z.to_nat (to_u64 (k_keylen (bk_key k)))) (k_buffer (bk_key k)))]
       | Some e0 => fun k => hb <-? header_bytes_from_type (be_stype e0) (br_streamer sis (Br top c1 e subs1 ls bks) e0) (be_class e0) ;;
          ps <-? slices (k_buffer (bk_key k)) (bk_offsets k ++ [to_i32 (zlen (k_buffer (bk_key k)))]) ;; Ok [Irregular 0 ps hb] end =
     match e with
       | None => fun k : basket => Ok [Regular (bk_nevbuf k) 1 (skipn (Z.to_nat (to_u64 (k_keylen (bk_key k)))) (k_buffer (bk_key k)))]
       | Some e0 => fun k => hb <-? header_bytes_from_type (be_stype e0) (br_streamer sis (Br top c2 e subs2 ls bks) e0) (be_class e0) ;;
          ps <-? slices (k_buffer (bk_key k)) (bk_offsets k ++ [to_i32 (zlen (k_buffer (bk_key k)))]) ;; Ok [Irregular 0 ps hb] end).
  { destruct e as [e0|]; [|reflexivity]. now rewrite ES. }
  pose proof (alike_rest d1 d2 sis (Br top c1 e subs1 ls bks) (Br top c2 e subs2 ls bks) eq_refl ltac:(unfold br_name; cbn [br_core]; now rewrite EN) EC
    _ _ _ _ sz lv L1 L2 F) as R. rewrite R. f_equal.
  destruct bks as [|k [|? ?]]; try reflexivity. destruct e as [e0|]; [|reflexivity]. now rewrite ES.
Qed.
Lemma alike_base d1 d2 b1 b2 : alike d1 d2 b1 b2 -> alike d1 d2 (as_base b1) (as_base b2).
Proof. intros []. constructor; auto. Qed.
Lemma alike_name d1 d2 sis b1 b2 : alike d1 d2 b1 b2 -> item_type_name sis b1 = item_type_name sis b2.
Proof.
  intros [top c1 c2 e subs1 subs2 ls bks EN EC L1 L2 F FS]. unfold item_type_name. cbn [br_elem br_subs br_top br_leaves].
  assert (ES : forall e0, br_streamer sis (Br top c1 e subs1 ls bks) e0 = br_streamer sis (Br top c2 e subs2 ls bks) e0).
  { intros e'. unfold br_streamer, br_name. cbn [br_core]. now rewrite EN. }
  destruct e as [e|]; [|reflexivity]. rewrite !ES. inversion FS; subst; reflexivity.
Qed.
Lemma alike_get_basket {A} d1 d2 sis (func : R A) b1 b2 : alike d1 d2 b1 b2 -> get_basket d1 sis func b1 = get_basket d2 sis func b2.
Proof.
  intros H. pose proof (alike_buffer d1 d2 sis _ _ H) as B. destruct H as [top c1 c2 e subs1 subs2 ls bks EN EC L1 L2 F FS]. unfold get_basket. cbn [br_subs].
  destruct FS as [|s1 s2 subs1 subs2 H1 FS]; [now rewrite B|].
  assert (E : res_map (fun s => baskets_buffer d1 sis (as_base s)) (s1 :: subs1) = res_map (fun s => baskets_buffer d2 sis (as_base s)) (s2 :: subs2)).
  { clear - H1 FS. cbn [res_map]. rewrite (alike_buffer d1 d2 sis _ _ (alike_base _ _ _ _ H1)). destruct (baskets_buffer d2 sis (as_base s2)); try reflexivity. cbn [rbind].
    enough (E : res_map (fun s => baskets_buffer d1 sis (as_base s)) subs1 = res_map (fun s => baskets_buffer d2 sis (as_base s)) subs2) by now rewrite E.
    induction FS as [|x1 x2 l1 l2 X _ IH]; [reflexivity|]. cbn [res_map]. now rewrite IH, (alike_buffer d1 d2 sis _ _ (alike_base _ _ _ _ X)). }
  now rewrite E.
Qed.
Lemma alike_iter d1 d2 sis t b1 b2 : alike d1 d2 b1 b2 -> as_iter d1 sis t b1 = as_iter d2 sis t b2.
Proof. intros H. unfold as_iter. now rewrite (alike_name d1 d2 sis b1 b2 H), (alike_get_basket d1 d2 sis _ b1 b2 H). Qed.
Lemma alike_slices d1 d2 sis t b1 b2 : alike d1 d2 b1 b2 -> as_iter_slice d1 sis t b1 = as_iter_slice d2 sis t b2.
Proof. intros H. unfold as_iter_slice. now rewrite (alike_name d1 d2 sis b1 b2 H), (alike_get_basket d1 d2 sis _ b1 b2 H). Qed.
End Decoders.

(** ** Reading does not depend on decoders that are not used *)
Definition ref {A} (r1 r2 : res A) : Prop := r1 <> Unmodelled -> r2 = r1.
Lemma ref_refl {A} (r : res A) : ref r r. Proof. now intros _. Qed.
Lemma ref_unmodelled {A} (r : res A) : ref Unmodelled r. Proof. intros H. now contradiction H. Qed.
Lemma ref_rbind {A B} (m1 m2 : res A) (f1 f2 : A -> res B) : ref m1 m2 -> (forall a, ref (f1 a) (f2 a)) -> ref (rbind m1 f1) (rbind m2 f2).
Proof.
  intros H F N. destruct m1 as [a| | | |]; cbn [rbind] in *; try (rewrite H by discriminate; reflexivity); [|now contradiction N].
  rewrite H by discriminate. cbn [rbind]. now apply F.
Qed.
Lemma ref_unwrap {A} (r1 r2 : res A) : ref r1 r2 -> ref (unwrap r1) (unwrap r2).
Proof. intros H N. destruct r1; cbn [unwrap] in *; try (rewrite H by discriminate; reflexivity). now contradiction N. Qed.
Lemma ref_res_map {A B} (g1 g2 : A -> res B) l : (forall a, ref (g1 a) (g2 a)) -> ref (res_map g1 l) (res_map g2 l).
Proof.
  intros H. induction l as [|a l IH]; [apply ref_refl|]. cbn [res_map]. apply ref_rbind; [apply H|]. intros b. apply ref_rbind; [exact IH|].
  intros. apply ref_refl.
Qed.
Section Refine.
Context (L : decoders).
Ltac step := match goal with
  | |- ref ?x ?x => apply ref_refl
  | |- ref (rbind _ _) (rbind _ _) => apply ref_rbind; [|intros ?]
  | |- ref (unwrap _) (unwrap _) => apply ref_unwrap
  | |- ref (res_map _ _) (res_map _ _) => apply ref_res_map; intros ?
  | |- ref (if ?b then _ else _) (if ?b then _ else _) => destruct b
  | |- ref (match ?b with _ => _ end) (match ?b with _ => _ end) => destruct b
  end.
Lemma ref_loop f : forall n fin dst src, ref (@decompress_loop no_decoders f n fin dst src) (@decompress_loop L f n fin dst src).
Proof.
  induction f as [|f IH]; intros; cbn [decompress_loop]; [apply ref_refl|]. step; [apply ref_refl|]. step; [apply ref_refl|]. cbv zeta.
  destruct (kind_of _); [apply ref_unmodelled|apply ref_unmodelled|destruct (_ <? 8); [apply ref_refl|apply ref_unmodelled]|apply ref_refl].
Qed.
Lemma ref_key_bytes d k : ref (@key_bytes no_decoders d k) (@key_bytes L d k).
Proof. unfold key_bytes, decompress. repeat (step || apply ref_loop). Qed.
Lemma ref_key_object d k : ref (@key_object no_decoders d k) (@key_object L d k).
Proof. unfold key_object. step; [apply ref_key_bytes|apply ref_refl]. Qed.
Lemma ref_open d : ref (@open_file no_decoders d) (@open_file L d).
Proof. unfold open_file, read_free_segments, read_sinfos. repeat (step || apply ref_key_bytes || apply ref_key_object). Qed.
Lemma ref_get_object f n : ref (@get_object no_decoders f n) (@get_object L f n).
Proof. unfold get_object. repeat (step || apply ref_key_object). Qed.
Lemma ref_get_tree f n : ref (@get_tree no_decoders f n) (@get_tree L f n).
Proof. unfold get_tree. step; [apply ref_get_object|apply ref_refl]. Qed.
Lemma ref_raw_data d b : ref (@raw_data no_decoders d b) (@raw_data L d b).
Proof. unfold raw_data. step; [step; apply ref_key_bytes|apply ref_refl]. Qed.
Lemma ref_basket_chunk d sis b seek len size l : ref (@basket_chunk no_decoders d sis b seek len size l) (@basket_chunk L d sis b seek len size l).
Proof. unfold basket_chunk. step; [apply ref_refl|]. step; [apply ref_refl|]. cbv zeta. step; [apply ref_raw_data|apply ref_refl]. Qed.
Lemma ref_baskets_buffer d sis b : ref (@baskets_buffer no_decoders d sis b) (@baskets_buffer L d sis b).
Proof.
  unfold baskets_buffer. cbv zeta. do 3 (step; [apply ref_refl|]). step; [|apply ref_refl]. step. destruct a2 as [[[? ?] ?] ?]. apply ref_basket_chunk.
Qed.
Lemma ref_get_basket {A} d sis (func : R A) b : ref (@get_basket no_decoders d sis A func b) (@get_basket L d sis A func b).
Proof.
  unfold get_basket. destruct (br_subs b).
  - step; [apply ref_baskets_buffer|apply ref_refl].
  - step; [step; apply ref_baskets_buffer|apply ref_refl].
Qed.
Lemma ref_as_iter d sis t b : ref (@as_iter no_decoders d sis t b) (@as_iter L d sis t b).
Proof. unfold as_iter. step; [apply ref_refl|]. step; [apply ref_get_basket|apply ref_refl]. Qed.
Lemma ref_as_iter_slice d sis t b : ref (@as_iter_slice no_decoders d sis t b) (@as_iter_slice L d sis t b).
Proof. unfold as_iter_slice. step; [apply ref_refl|]. step; [apply ref_get_basket|apply ref_refl]. Qed.
Lemma ref_from_branch_tree d sis t w : forall b, ref (@from_branch_tree no_decoders d sis t b w) (@from_branch_tree L d sis t b w).
Proof.
  induction w as [ty|g fs IH|g fs] using rty_rec'; intros b.
  - cbn [from_branch_tree]. step; [|apply ref_refl]. unfold plain_iter. step; [apply ref_as_iter|apply ref_refl].
  - rewrite !from_branch_struct. step; [|apply ref_refl]. induction IH as [|[f w] fs H _ IHf]; [apply ref_refl|]. cbn [trees].
    step; [apply H|]. step; [exact IHf|apply ref_refl].
  - cbn [from_branch_tree]. step; [|apply ref_refl]. step. unfold plain_iter. step; [apply ref_as_iter_slice|apply ref_refl].
Qed.
Lemma ref_from_tree d sis t w : ref (@from_tree no_decoders d sis t w) (@from_tree L d sis t w).
Proof. unfold from_tree. step; [apply ref_from_branch_tree|apply ref_refl]. Qed.
End Refine.
