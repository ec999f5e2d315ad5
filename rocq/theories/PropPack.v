(** Compressed files. *)
From Verif Require Import Base Bytes RBuf Values Key Obj TreeObj Decomp File Column ColRead SliceRead Derive Spec SpecTree SpecPack.
From Verif Require Import Codec CodecFacts FileLay FileOpen PackFacts Sample ColOps PropRead PropTree.

(** ** C47: compression does not show *)

(** A compressed record gives back its contents, whatever the decoders are: what the
    library adds to them is right. *)
Theorem C47_packed_records_give_back_their_contents {L : decoders} d k content stored :
  0 < zlen content < 2 ^ 24 -> zlen stored <> zlen content -> packed content stored ->
  record_of d k (zlen content) stored -> key_bytes d k = Ok content.
Proof. apply key_bytes_packed. Qed.
(** So an object is the same, compressed or not. *)
Theorem C47_packed_objects_are_the_same {L : decoders} d1 d2 k1 k2 content stored :
  0 < zlen content < 2 ^ 24 -> zlen stored <> zlen content -> packed content stored ->
  record_of d1 k1 (zlen content) content -> record_of d2 k2 (zlen content) stored ->
  k_class k1 = k_class k2 -> k_keylen k1 = k_keylen k2 -> key_object d1 k1 = key_object d2 k2.
Proof.
  intros H N P R1 R2 C K. unfold key_object. rewrite (key_bytes_plain _ _ _ R1), (key_bytes_packed _ _ _ _ H N P R2). now rewrite C, K.
Qed.

(** A branch gives the same values, read as any type, from baskets with the same
    contents, in whatever file and at whatever place they are, compressed or not. *)
Theorem C47_columns_depend_on_contents_only {L : decoders} d1 d2 sis b1 b2 : alike d1 d2 b1 b2 ->
  (forall t, as_iter d1 sis t b1 = as_iter d2 sis t b2) /\ (forall t, as_iter_slice d1 sis t b1 = as_iter_slice d2 sis t b2).
Proof. intros H. split; intros t; [now apply alike_iter|now apply alike_slices]. Qed.

Lemma basket_at_facts {L : decoders} d k size nevsize n last len stored :
  basket_at d k size nevsize n last len stored ->
  - 2 ^ 31 <= size < 2 ^ 31 -> 0 <= nevsize < 2 ^ 31 -> - 2 ^ 31 <= n < 2 ^ 31 -> - 2 ^ 31 <= last < 2 ^ 31 ->
  record_of d k len stored /\
  exists buf, read_at d (k_seek k) (k_nbytes k) = Ok buf /\
    rrun 0 basket_unmarshal buf = Ok (mkBasket k n last nevsize (if size <? last then last else size) []).
Proof.
  intros (h & pre & post & D & K & O & NB & NL & E & LP & HD) H1 H2 H3 H4.
  assert (LN : zlen (basket_numbers size nevsize n last) = 19) by (unfold basket_numbers; rewrite !zlen_app, !zlen_be; reflexivity).
  pose proof (zlen_nonneg h). pose proof (zlen_nonneg stored). pose proof (zlen_nonneg pre). split.
  - split; [lia|]. split; [lia|]. split; [exact O|]. split; [exact NB|]. split; [exact NL|].
    exists (pre ++ h ++ basket_numbers size nevsize n last), post. split; [now rewrite E, <- !app_assoc|]. split; [rewrite !zlen_app, LN; lia|exact HD].
  - exists (h ++ basket_numbers size nevsize n last ++ stored). split.
    + apply read_at_ok; [now exists pre, post|rewrite !zlen_app, LN; lia|exact HD].
    + rewrite app_assoc. unfold rrun, r_new. assert (RD : reads_sk None basket_unmarshal (h ++ basket_numbers size nevsize n last) (mkBasket k n last nevsize (if size <? last then last else size) [])).
      2:{ specialize (RD [] stored 0 []). rewrite (@zlen_nil Z) in RD. cbn [app] in RD. now rewrite RD. }
      unfold basket_unmarshal, basket_numbers. eapply reads_bind; [exact D|].
      eapply reads_bind; [apply reads_sint; [lia|red; change (256 ^ Z.of_nat 2 / 2) with 32768; lia]|].
      change (ensure_max 3 3) with (@ret rbuf unit tt).
      rewrite <- (app_nil_l (be 4 size ++ _)). eapply reads_bind; [apply reads_ret|].
      eapply reads_bind; [apply reads_sint; [lia|red; change (256 ^ Z.of_nat 4 / 2) with 2147483648; lia]|].
      eapply reads_bind; [apply reads_sint; [lia|red; change (256 ^ Z.of_nat 4 / 2) with 2147483648; lia]|].
      destruct (Z.ltb_spec nevsize 0); [lia|].
      rewrite <- (app_nil_l (be 4 n ++ _)). eapply reads_bind; [apply reads_ret|].
      eapply reads_bind; [apply reads_sint; [lia|red; change (256 ^ Z.of_nat 4 / 2) with 2147483648; lia]|].
      eapply reads_bind; [apply reads_sint; [lia|red; change (256 ^ Z.of_nat 4 / 2) with 2147483648; lia]|].
      change [0] with (be 1 0). rewrite <- (app_nil_r (be 1 0)).
      eapply reads_bind; [apply (reads_uint 1 0); red; change (256 ^ Z.of_nat 1) with 256; lia|].
      cbv zeta. change (80 <=? 0) with false. change (0 =? 0) with true. change (0 =? 1) with false. change (10 <? 0) with false.
      cbn [negb andb orb].
      rewrite <- (app_nil_l []). eapply reads_bind; [apply reads_ret|].
      rewrite <- (app_nil_l []). eapply reads_bind; [apply reads_ret|]. apply reads_ret.
Qed.
(** A basket and its compressed copy have the same contents. *)
Theorem C47_compressed_copies_are_alike {L : decoders} d1 d2 k1 k2 size nevsize n last content stored :
  - 2 ^ 31 <= size < 2 ^ 31 -> 0 <= nevsize < 2 ^ 31 -> - 2 ^ 31 <= n < 2 ^ 31 -> - 2 ^ 31 <= last < 2 ^ 31 ->
  0 < zlen content < 2 ^ 24 -> zlen stored <> zlen content -> packed content stored ->
  basket_at d1 k1 size nevsize n last (zlen content) content ->
  basket_at d2 k2 size nevsize n last (zlen content) stored ->
  k_keylen k1 = k_keylen k2 ->
  alike_basket d1 d2 (k_seek k1, k_nbytes k1) (k_seek k2, k_nbytes k2).
Proof.
  intros H1 H2 H3 H4 HC N P B1 B2 K.
  destruct (basket_at_facts _ _ _ _ _ _ _ _ B1 H1 H2 H3 H4) as (R1 & u1 & A1 & U1).
  destruct (basket_at_facts _ _ _ _ _ _ _ _ B2 H1 H2 H3 H4) as (R2 & u2 & A2 & U2). split.
  - cbn [snd]. destruct R1 as (_ & ? & _ & -> & _), R2 as (_ & ? & _ & -> & _). destruct B1 as (h1 & _ & _ & _ & ? & _), B2 as (h2 & _ & _ & _ & ? & _).
    pose proof (zlen_nonneg h1). pose proof (zlen_nonneg h2). pose proof (zlen_nonneg stored). split; lia.
  - intros _. exists u1, u2. do 2 eexists. exists content. split; [exact A1|]. split; [exact A2|]. split; [exact U1|]. split; [exact U2|].
    cbn [bk_key bk_nevbuf bk_last bk_nevsize]. split; [now apply key_bytes_plain|]. split; [now apply (key_bytes_packed d2 k2 content stored)|].
    split; [exact K|]. split; [|repeat split]. destruct R1 as (_ & _ & -> & _), R2 as (_ & _ & -> & _). reflexivity.
Qed.

(** What is stored plainly is read with any decoders as it is without. *)
Theorem C47_decoders_do_not_matter (L : decoders) :
  (forall d f, @open_file no_decoders d = Ok f -> @open_file L d = Ok f) /\
  (forall f n t, @get_tree no_decoders f n = Ok t -> @get_tree L f n = Ok t) /\
  (forall d sis t b vs, @as_iter no_decoders d sis t b = Ok vs -> @as_iter L d sis t b = Ok vs) /\
  (forall d sis t b vs, @as_iter_slice no_decoders d sis t b = Ok vs -> @as_iter_slice L d sis t b = Ok vs) /\
  (forall d sis t w l, @from_tree no_decoders d sis t w = Ok l -> @from_tree L d sis t w = Ok l).
Proof.
  repeat split; intros *; intros H; rewrite <- H.
  - apply ref_open. now rewrite H.
  - apply ref_get_tree. now rewrite H.
  - apply ref_as_iter. now rewrite H.
  - apply ref_as_iter_slice. now rewrite H.
  - apply ref_from_tree. now rewrite H.
Qed.
(** In particular the files written by the library. *)
Theorem C47_written_files_need_no_decoders (L : decoders) path ts es f t : SpecTree.finished path ts es f -> short_path path -> visible ts t ->
  exists fo r, @open_file L (f_disk f) = Ok fo /\ @get_tree L fo (tb_name t) = Ok r /\
    Forall2 (fun c b => br_name b = c_name c /\ (column_readable c -> @as_iter L (f_disk fo) (f_sinfos fo) (c_type c) b = Ok (c_values c)))
      (columns (tb_setup t)) (t_branches r).
Proof.
  intros F S V. destruct (C12_columns_give_back_their_values path ts es f t F S V) as (fo & r & O & G & A).
  destruct (C47_decoders_do_not_matter L) as (H1 & H2 & H3 & _). exists fo, r. split; [now apply H1|]. split; [now apply H2|].
  clear - A H3. induction A as [|c b cs bs (N & X) _ IH]; constructor; [|exact IH]. split; [exact N|]. intros R. now apply H3, X.
Qed.

(** *** A decoder *)
(** Pairs of a length and a byte. *)
Fixpoint unrun (s : bytes) : bytes :=
  match s with
  | n :: b :: r => repeat b (Z.to_nat n) ++ unrun r
  | _ => []
  end.
(** It stops at a pair of zeros. *)
Fixpoint until00 (s : bytes) : bytes :=
  match s with
  | 0 :: 0 :: _ => []
  | a :: b :: r => a :: b :: until00 r
  | _ => []
  end.
Definition run_decoders : decoders :=
  mkDecoders (fun s => Ok (unrun (until00 s))) (fun s => Ok (unrun (until00 s))) (fun s n => Ok (Some (unrun (until00 s)))).
(** The basket of the first column of the sample file, [1; -2; 3], and a file that
    consists of a compressed copy of it. *)
Definition runs0 : bytes := [3; 0; 1; 1; 3; 255; 1; 254; 3; 0; 1; 3; 0; 0].
Definition content0 : bytes := [0; 0; 0; 1; 255; 255; 255; 254; 0; 0; 0; 3].
Definition stored0 : bytes := block (bs "ZL") 8 12 runs0.
Definition column0 : branch := Eval vm_compute in hd (parent []) branches0.
Definition place0 : Z * Z := Eval vm_compute in (hd 0 (b_seek (br_core column0)), hd 0 (b_bytes (br_core column0))).
Definition basket0 : bytes := Eval vm_compute in zsub disk0 (fst place0) (snd place0).
(** Its key, as it was written, and as it is for the compressed copy at the start of a
    file. *)
Definition key0 (stored seek : Z) : key := mkKey 4 (62 + stored) 12 now_ts 62 1 seek 100 (bs "TBasket") (bs "x") (bs "events") [].
Definition packed_disk0 : bytes := Eval vm_compute in khdr (key0 (zlen stored0) 0) ++ basket_numbers 32768 4 3 74 ++ stored0.
Definition packed_column0 : branch := Eval vm_compute in
  let '(Br top c e subs ls bks) := column0 in
  Br top (mkBC (b_named c) (b_fill c) 101 (b_bsize c) (b_eol c) (b_wb c) (b_entrynum c) (b_iobits c) (b_offset c)
    (b_maxb c) (b_split c) (b_entries c) (b_first c) (b_tot c) (b_zip c) [62 + zlen stored0] (b_entry c) [0] (b_fname c)) e subs ls bks.
Example packed0 : @packed run_decoders content0 stored0 /\ zlen stored0 <> zlen content0.
Proof. split; [apply (@packed_zlib run_decoders); vm_compute; reflexivity|vm_compute; discriminate]. Qed.
Lemma key0_ok n seek : 0 <= n < 1000 -> 0 <= seek < 1000 -> key_ok (key0 n seek).
Proof.
  intros H S. unfold key_ok. cbn [key0 k_nbytes k_rvers k_objlen k_date k_keylen k_cycle k_seek k_pdir k_class k_name k_title].
  change (1000 <? 4) with false. cbn iota. unfold is_i16, is_i32, kStartBigFile.
  split; [lia|]. split; [lia|]. split; [lia|]. split; [apply now_ok|]. split; [lia|]. split; [lia|]. split; [lia|]. split; [lia|].
  split; [|split]; (split; [vm_compute; reflexivity|vm_compute; reflexivity]).
Qed.
Lemma key0_decodes n seek : 0 <= n < 1000 -> 0 <= seek < 1000 -> decodes key_unmarshal (khdr (key0 n seek)) (key_seen (key0 n seek)).
Proof.
  intros H S before after off refs. destruct (khdr_ok _ (key0_ok n seek H S)) as (_ & _ & _ & R). apply (R None).
Qed.
Example plain_basket0 : basket_at disk0 (key_seen (key0 12 208)) 32768 4 3 74 12 content0.
Proof.
  exists (khdr (key0 12 208)), (firstn 208 disk0), (skipn 282 disk0). split; [apply key0_decodes; lia|].
  repeat split; vm_compute; reflexivity.
Qed.
Example packed_basket0 : basket_at packed_disk0 (key_seen (key0 (zlen stored0) 0)) 32768 4 3 74 12 stored0.
Proof.
  exists (khdr (key0 (zlen stored0) 0)), [], []. split; [apply key0_decodes; vm_compute; split; congruence|].
  repeat split; vm_compute; reflexivity.
Qed.
Example alike0 : @alike run_decoders disk0 packed_disk0 column0 packed_column0.
Proof.
  apply alike_br; try reflexivity; [|apply Forall2_nil]. apply Forall2_cons; [|apply Forall2_nil].
  apply (@C47_compressed_copies_are_alike run_decoders disk0 packed_disk0 (key_seen (key0 12 208)) (key_seen (key0 (zlen stored0) 0))
    32768 4 3 74 content0 stored0); try lia.
  - split; reflexivity.
  - apply packed0.
  - apply packed0.
  - apply plain_basket0.
  - apply packed_basket0.
  - reflexivity.
Qed.
Example packed_read0 : @as_iter run_decoders packed_disk0 [] (TPrim I32) packed_column0 = Ok [VInt 1; VInt (-2); VInt 3].
Proof.
  rewrite <- (proj1 (@C47_columns_depend_on_contents_only run_decoders _ _ [] _ _ alike0)). vm_compute. reflexivity.
Qed.

(** *** What cannot be read *)
(** ROOT stores more than 16 MB in several blocks.  If the decoder stops at the end of
    the first, such an object is refused, for the first two algorithms. *)
Lemma refused_record {L : decoders} d k n stored : n <> zlen stored -> 0 <= n -> decompress n stored = Err EIo -> record_of d k n stored -> key_bytes d k = Err EIo.
Proof.
  intros N H E (H1 & H2 & H3 & H4 & H5 & a & c & EA & LA & HD). unfold key_bytes.
  destruct (Z.eqb_spec (k_objlen k) (k_nbytes k - k_keylen k)); [lia|].
  assert (S : seg d (k_seek k + k_keylen k) stored) by (exists a, c; auto). pose proof (seg_bound _ _ _ S). pose proof (zlen_nonneg stored).
  destruct (Z.ltb_spec (k_nbytes k - k_keylen k) (-2147483648)); [lia|]. destruct (Z.ltb_spec (k_objlen k) 0); [lia|].
  rewrite u64_add_small by lia. cbn [rbind]. unfold u64_sub. rewrite !to_u64_small by lia. destruct (Z.leb_spec (k_keylen k) (k_nbytes k)); [|lia].
  cbn [rbind]. rewrite (read_at_ok d _ _ stored S) by lia. cbn [rbind]. now rewrite H3.
Qed.
Theorem C47_several_blocks_refuted {L : decoders} d k first n v body rest : zlen first < n -> n <> 9 + zlen (body ++ rest) ->
  (zlib_out (body ++ rest) = Ok first -> record_of d k n (block (bs "ZL") v (zlen first) body ++ rest) -> key_bytes d k = Err EIo) /\
  (xz_out (body ++ rest) = Ok first -> record_of d k n (block (bs "XZ") v (zlen first) body ++ rest) -> key_bytes d k = Err EIo).
Proof.
  intros H N. pose proof (zlen_nonneg first). pose proof (zlen_nonneg (body ++ rest)).
  assert (Z : forall t1 t2, zlen (block [t1; t2] v (zlen first) body ++ rest) = 9 + zlen (body ++ rest)).
  { intros. rewrite !zlen_app, (proj2 (proj2 (block_parts t1 t2 v (zlen first) body))). lia. }
  change (bs "ZL") with [90; 76]. change (bs "XZ") with [88; 90].
  split; intros D; (apply refused_record; [rewrite Z; exact N|lia|]).
  - unfold decompress. cbn [decompress_loop]. destruct (Z.leb_spec n 0); [lia|].
    rewrite Z. destruct (Z.ltb_spec (9 + zlen (body ++ rest)) 9); [lia|]. cbv zeta.
    change (skipn 9 (block [90; 76] v (zlen first) body ++ rest)) with (body ++ rest).
    change (kind_of (firstn 9 (block [90; 76] v (zlen first) body ++ rest))) with ZZlib. cbn iota. rewrite D. cbn [rbind].
    unfold read_exact. destruct (Z.ltb_spec (zlen first) n); [reflexivity|lia].
  - unfold decompress. cbn [decompress_loop]. destruct (Z.leb_spec n 0); [lia|].
    rewrite Z. destruct (Z.ltb_spec (9 + zlen (body ++ rest)) 9); [lia|]. cbv zeta.
    change (skipn 9 (block [88; 90] v (zlen first) body ++ rest)) with (body ++ rest).
    change (kind_of (firstn 9 (block [88; 90] v (zlen first) body ++ rest))) with ZLzma. cbn iota. rewrite D. cbn [rbind].
    unfold read_exact. destruct (Z.ltb_spec (zlen first) n); [reflexivity|lia].
Qed.
Example several0 : @key_bytes run_decoders (repeat 0 10 ++ block (bs "ZL") 8 2 [2; 7; 0; 0] ++ block (bs "ZL") 8 2 [2; 9; 0; 0])
  (mkKey 4 36 4 0 10 1 0 0 (bs "K") (bs "n") (bs "t") []) = Err EIo.
Proof. vm_compute. reflexivity. Qed.

(** Records compressed with Zstandard, or in any other way, abort the program. *)
Theorem C47_other_algorithms_refuted {L : decoders} d k n v body a b :
  ~ In [a; b] [bs "ZL"; bs "XZ"; bs "L4"] -> 0 < n -> n <> 9 + zlen body ->
  record_of d k n (block [a; b] v n body) -> key_bytes d k = Panic.
Proof.
  intros NI H N (H1 & H2 & H3 & H4 & H5 & x & c & EA & LA & HD). unfold key_bytes. set (stored := block [a; b] v n body) in *.
  assert (LB : zlen stored = 9 + zlen body) by apply block_parts. pose proof (zlen_nonneg body).
  destruct (Z.eqb_spec (k_objlen k) (k_nbytes k - k_keylen k)); [lia|].
  assert (S : seg d (k_seek k + k_keylen k) stored) by (exists x, c; auto). pose proof (seg_bound _ _ _ S).
  destruct (Z.ltb_spec (k_nbytes k - k_keylen k) (-2147483648)); [lia|]. destruct (Z.ltb_spec (k_objlen k) 0); [lia|].
  rewrite u64_add_small by lia. cbn [rbind]. unfold u64_sub. rewrite !to_u64_small by lia. destruct (Z.leb_spec (k_keylen k) (k_nbytes k)); [|lia].
  cbn [rbind]. rewrite (read_at_ok d _ _ stored S) by lia. cbn [rbind]. rewrite H3. unfold decompress. cbn [decompress_loop].
  destruct (Z.leb_spec n 0); [lia|]. rewrite LB. destruct (Z.ltb_spec (9 + zlen body) 9); [lia|]. cbv zeta.
  replace (kind_of (firstn 9 stored)) with ZOther; [reflexivity|]. unfold stored, block. cbn [app firstn].
  unfold kind_of. cbn [In] in NI. change (bs "ZL") with [90; 76] in NI. change (bs "XZ") with [88; 90] in NI. change (bs "L4") with [76; 52] in NI.
  symmetry. destruct (Z.eq_dec a 90) as [->|A1]; [destruct (Z.eq_dec b 76) as [->|B1]; [tauto|]|destruct (Z.eq_dec a 88) as [->|A2]; [destruct (Z.eq_dec b 90) as [->|B2]; [tauto|]|
    destruct (Z.eq_dec a 76) as [->|A3]; [destruct (Z.eq_dec b 52) as [->|B3]; [tauto|]|]]].
  all: repeat match goal with |- match ?z with _ => _ end = _ => is_var z; destruct z; try reflexivity; try congruence end.
Qed.
Example zstd0 : @key_bytes run_decoders (repeat 0 10 ++ block (bs "ZS") 1 4 [4; 7; 0; 0])
  (mkKey 4 23 4 0 10 1 0 0 (bs "K") (bs "n") (bs "t") []) = Panic.
Proof.
  apply (C47_other_algorithms_refuted _ _ 4 1 [4; 7; 0; 0] 90 83); [cbn; intuition congruence|lia|vm_compute; congruence|].
  repeat split; try (vm_compute; congruence). exists (repeat 0 10), []. repeat split; vm_compute; reflexivity.
Qed.
