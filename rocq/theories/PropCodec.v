(** Properties of the byte-level encoding: C01-C03, C05-C10, C23, C24, C35-C38. *)
From Verif Require Import File Values TreeObj StreamerDb Spec CodecFacts Dates.

(** ** C01: scalars *)
Theorem C01_scalars_survive p z : scalar p z ->
  exists w, big_endian (scalar_bytes p) z w /\
            appends (write_prim p z) w /\ decodes (read_prim p) w z.
Proof.
  intros H. apply scalar_prim_ok in H. exists (be (prim_size p) z). rewrite scalar_bytes_size.
  split; [apply be_big_endian|]. split; [now apply writes_appends, writes_prim|].
  apply reads_sk_decodes. now apply reads_prim.
Qed.

Example C01_min_i64 : scalar I64 (-9223372036854775808).
Proof. red; cbn; lia. Qed.
Example C01_nan_payload : scalar F64 9221120237041090561.
Proof. red; cbn; lia. Qed.

(** ** C02: strings *)
Theorem C02_strings_survive s : text s ->
  exists w, string_layout s w /\ tstring_sizeof s = zlen w /\
            appends (write_string s) w /\ decodes read_string w s.
Proof.
  intros H. pose proof H as [_ Hl]. apply text_str_ok in H as [H1 H2]. pose proof (zlen_nonneg s).
  exists (str_bytes s). split; [now apply str_bytes_layout|].
  split; [now apply tstring_sizeof_len|].
  split; [apply writes_appends, writes_string; red; lia|].
  apply reads_sk_decodes. apply reads_string; [lia|exact H2].
Qed.

(** What the reader accepts as a string is exactly UTF-8. *)
Theorem C02_validation_is_utf8 s : utf8_valid s = true <-> utf8 s.
Proof. symmetry. apply utf8_iff. Qed.

Example C02_text : text (bs "ROOT " ++ [195; 169]).
Proof. split; [now apply utf8_iff|rewrite zlen_def; reflexivity]. Qed.

(** ** C03: values of every type *)
Theorem C03_values_survive t v : has_type t v ->
  exists w, appends (marshal t v) w /\ decodes (unmarshal t) w v.
Proof.
  intros H. apply has_type_wt in H. exists (enc t v).
  split; [now apply writes_appends, writes_marshal|]. now apply reads_sk_decodes, reads_unmarshal.
Qed.

Example C03_nested :
  has_type (TVec (TArr 2 (TVec TString))) (VList [VList [VList [VStr (bs "a")]; VList []]]).
Proof.
  apply wt_has_type. cbn [wt]. split; [rewrite zlen_def; cbn; lia|]. constructor; [|constructor].
  split; [reflexivity|].
  constructor; [|constructor; [|constructor]]; (split; [rewrite zlen_def; cbn; lia|]); [|constructor].
  constructor; [|constructor]. split; [rewrite zlen_def; reflexivity|reflexivity].
Qed.

(** ** C05: key headers *)
Theorem C05_keys_survive k :
  0 <= k_nbytes k < 2 ^ 31 -> - 2 ^ 31 <= k_objlen k < 2 ^ 31 ->
  - 2 ^ 15 <= k_rvers k < 2 ^ 15 -> - 2 ^ 15 <= k_keylen k < 2 ^ 15 -> - 2 ^ 15 <= k_cycle k < 2 ^ 15 ->
  1995 <= c_year (civil_of_ts (k_date k)) ->
  (2000000000 < k_seek k -> 1000 <= k_rvers k) ->
  (if 1000 <? k_rvers k
   then - 2 ^ 63 <= k_seek k < 2 ^ 63 /\ - 2 ^ 63 <= k_pdir k < 2 ^ 63
   else - 2 ^ 31 <= k_seek k < 2 ^ 31 /\ - 2 ^ 31 <= k_pdir k < 2 ^ 31) ->
  text (k_class k) -> text (k_name k) -> text (k_title k) ->
  exists w k',
    appends (key_marshal k) w /\ decodes key_unmarshal w k' /\
    k_nbytes k' = k_nbytes k /\ k_objlen k' = k_objlen k /\ k_rvers k' = k_rvers k /\
    k_keylen k' = k_keylen k /\ k_cycle k' = k_cycle k /\ k_seek k' = k_seek k /\ k_pdir k' = k_pdir k /\
    k_class k' = k_class k /\ k_name k' = k_name k /\ k_title k' = k_title k.
Proof.
  intros H1 H2 H3 H4 H5 H6 H7 H8 H9 H10 H11.
  destruct (key_rt k) as (w & _ & Hw & Hr).
  { split; [lia|]. split; [red; lia|]. split; [red; lia|]. split; [exact H6|].
    split; [red; lia|]. split; [red; lia|]. split; [exact H7|].
    split; [destruct (1000 <? k_rvers k); (split; red; lia)|].
    split; [now apply text_str_ok|]. split; now apply text_str_ok. }
  exists w, (key_seen k). split; [now apply writes_appends|]. split; [apply reads_sk_decodes, Hr|].
  repeat split.
Qed.

Example C05_big_key :
  let k := mkKey 1004 200 150 now_ts 50 3 3000000000 100 (bs "TTree") (bs "events") [] [] in
  2000000000 < k_seek k /\ 1000 <= k_rvers k /\ 1995 <= c_year (civil_of_ts (k_date k)).
Proof. vm_compute. intuition congruence. Qed.

(** ** C06: dates *)
Theorem C06_packed_date_determines_the_second ts ts' w w' :
  1995 <= c_year (civil_of_ts ts) <= 2058 -> 1995 <= c_year (civil_of_ts ts') <= 2058 ->
  wrun 0 (write_date ts) = Ok w -> wrun 0 (write_date ts') = Ok w' ->
  w = w' -> ts = ts'.
Proof.
  intros H H' E E' <-. exact (date_bytes_inj ts ts' H H' w E E').
Qed.

(** The date read is not the date written. *)
Theorem C06_date_read_back_refuted :
  exists ts w ts', 1995 <= c_year (civil_of_ts ts) <= 2058 /\
    wrun 0 (write_date ts) = Ok w /\ rrun 0 read_date w = Ok ts' /\ ts' <> ts.
Proof.
  exists now_ts, (be 4 (date_word now_ts)), (date_word now_ts).
  split; [vm_compute; intuition congruence|]. split; [vm_compute; reflexivity|].
  split; [vm_compute; reflexivity|]. vm_compute. congruence.
Qed.

Example C06_dates : c_year (civil_of_ts now_ts) = 2022 /\ c_year (civil_of_ts 2777777777) = 2058.
Proof. vm_compute. split; reflexivity. Qed.

(** ** C07: free segments *)
Theorem C07_free_segments_survive l :
  Forall (fun s => if 2000000000 <? s_last s
                   then - 2 ^ 63 <= s_first s < 2 ^ 63 /\ - 2 ^ 63 <= s_last s < 2 ^ 63
                   else - 2 ^ 31 <= s_first s < 2 ^ 31 /\ - 2 ^ 31 <= s_last s < 2 ^ 31) l ->
  exists w, zlen w = fold_right Z.add 0 (map seg_size l) /\
    appends (iterM seg_marshal l) w /\ decodes (repeatM (length l) seg_unmarshal) w l /\
    rrun 0 (read_spans (S (length w))) w = Ok l.
Proof.
  intros H.
  assert (Hl : forall s, In s l -> rt (seg_size s) (seg_marshal s) seg_unmarshal s).
  { intros s Hs. rewrite Forall_forall in H. specialize (H s Hs). apply seg_rt. unfold seg_ok, kStartBigFile.
    destruct (2000000000 <? s_last s); destruct H; (split; red; lia). }
  destruct (segs_back l Hl) as (w & L & Hw & Hr & Hs).
  exists w. split; [exact L|]. split; [now apply writes_appends|]. split; [apply reads_sk_decodes, Hr|].
  specialize (Hs [] 0 [] None (S (length w)) ltac:(lia)). cbn [app] in Hs. rewrite (@zlen_nil Z) in Hs.
  unfold rrun, r_new. rewrite Hs. reflexivity.
Qed.

Example C07_three : Forall (fun s => if 2000000000 <? s_last s
                   then - 2 ^ 63 <= s_first s < 2 ^ 63 /\ - 2 ^ 63 <= s_last s < 2 ^ 63
                   else - 2 ^ 31 <= s_first s < 2 ^ 31 /\ - 2 ^ 31 <= s_last s < 2 ^ 31)
  [mkSeg 100 200; mkSeg 700 2000000000; mkSeg 2500000000 9000000000].
Proof. repeat constructor; cbn; lia. Qed.

(** ** C08: the file header *)
Theorem C08_file_header_survives h :
  0 < fh_version h < 1000000 -> - 2 ^ 31 <= fh_begin h < 2 ^ 31 ->
  (if (2000000000 <? fh_end h) || (2000000000 <? fh_seekfree h) || (2000000000 <? fh_seekinfo h)
   then Forall (fun z => - 2 ^ 63 <= z < 2 ^ 63) [fh_end h; fh_seekfree h; fh_seekinfo h]
   else Forall (fun z => - 2 ^ 31 <= z < 2 ^ 31) [fh_end h; fh_seekfree h; fh_seekinfo h]) ->
  Forall (fun z => - 2 ^ 31 <= z < 2 ^ 31) [fh_nbfree h; fh_nfree h; fh_nbname h; fh_comp h; fh_nbinfo h] ->
  0 <= fh_units h < 256 -> zlen (fh_uuid h) = 16 ->
  round_trip
    (if (2000000000 <? fh_end h) || (2000000000 <? fh_seekfree h) || (2000000000 <? fh_seekinfo h)
     then 75 else 63)
    (fhdr_marshal h) fhdr_unmarshal h.
Proof.
  intros H1 H2 H3 H4 H5 H6. apply rt_round_trip. apply fhdr_rt.
  inversion H4 as [|? ? A1 H4a]; subst. inversion H4a as [|? ? A2 H4b]; subst.
  inversion H4b as [|? ? A3 H4c]; subst. inversion H4c as [|? ? A4 H4d]; subst.
  inversion H4d as [|? ? A5 _]; subst.
  unfold fhdr_ok, fhdr_big, kStartBigFile.
  split; [exact H1|]. split; [red; lia|].
  split. { destruct (_ || _); inversion H3 as [|? ? B1 H3a]; subst; inversion H3a as [|? ? B2 H3b]; subst;
           inversion H3b as [|? ? B3 _]; subst; (split; [red; lia|split; red; lia]). }
  split; [red; lia|]. split; [red; lia|]. split; [red; lia|]. split; [red; lia|].
  split; [red; lia|]. split; [red; lia|]. exact H6.
Qed.

Example C08_both_widths :
  fhdr_len (mkHdr 63002 100 5000 4000 60 1 58 4 1 3000 900 (repeat 0 16)) = 63 /\
  fhdr_len (mkHdr 63002 100 5000000000 4000000000 60 1 58 8 1 3000 900 (repeat 0 16)) = 75.
Proof. vm_compute. split; reflexivity. Qed.

(** ** C09: the directory record *)
Theorem C09_directory_survives d :
  - 2 ^ 15 <= d_rvers d < 2 ^ 15 ->
  1995 <= c_year (civil_of_ts (d_ctime d)) -> 1995 <= c_year (civil_of_ts (d_mtime d)) ->
  Forall (fun z => - 2 ^ 31 <= z < 2 ^ 31) [d_nbkeys d; d_nbname d; d_seekdir d; d_seekparent d; d_seekkeys d] ->
  zlen (d_uuid d) = 16 ->
  exists w d', appends (dir_marshal d) w /\ decodes dir_unmarshal w d' /\
    zlen w = (if 1000 <? d_rvers d then 60 else 48) /\
    d_rvers d' = d_rvers d /\ d_nbkeys d' = d_nbkeys d /\ d_nbname d' = d_nbname d /\
    d_seekdir d' = d_seekdir d /\ d_seekparent d' = d_seekparent d /\ d_seekkeys d' = d_seekkeys d /\
    d_uuid d' = d_uuid d.
Proof.
  intros H1 H2 H3 H4 H5.
  inversion H4 as [|? ? A1 H4a]; subst. inversion H4a as [|? ? A2 H4b]; subst.
  inversion H4b as [|? ? A3 H4c]; subst. inversion H4c as [|? ? A4 H4d]; subst.
  inversion H4d as [|? ? A5 _]; subst.
  destruct (dir_rt d) as (w & L & Hw & Hr).
  { split; [red; lia|]. split; [exact H2|]. split; [exact H3|]. split; [red; lia|]. split; [red; lia|].
    split; [destruct (dir_big d); (split; [red; lia|split; red; lia])|exact H5]. }
  exists w, (dir_seen d). split; [now apply writes_appends|]. split; [apply reads_sk_decodes, Hr|].
  split; [exact L|]. repeat split.
Qed.

Example C09_dir : let d := mkDir 5 now_ts now_ts 120 60 100 0 900 (repeat 0 16) [] (bs "f") [] [] in
  Forall (fun z => - 2 ^ 31 <= z < 2 ^ 31) [d_nbkeys d; d_nbname d; d_seekdir d; d_seekparent d; d_seekkeys d].
Proof. repeat constructor; cbn; lia. Qed.

(** ** C10: lists of polymorphic objects *)
Theorem C10_object_lists_survive {O} (known : bytes -> bool) (um : bytes -> R O) (l : list (item O)) :
  Forall (fun i => class_name (i_class i) /\ known (i_class i) = true /\
                   exists w, appends (i_body i) w /\
                     (forall before after off refs sk,
                        um (i_class i) (mkR (before ++ w ++ after) (zlen before) off refs sk)
                        = Ok (i_value i, mkR (before ++ w ++ after) (zlen before + zlen w) off refs sk))) l ->
  object_round_trip
    (iterM (fun i => write_object_any (i_class i) (i_id i) (i_body i) ;;; ret tt) l)
    (repeatM (length l) (read_object_any known um))
    (firsts [] l).
Proof.
  intros H. eapply sim_object_round_trip. apply (items_sim known um l []).
  eapply Forall_impl; [|exact H]. intros i (H1 & H2 & w & H3 & H4).
  split; [exact H1|]. split; [exact H2|]. exists w. split; [exact H3|].
  intros sk pre post off rr. apply H4.
Qed.

(** Two classes, three objects, one of them written twice. *)
Example C10_case :
  let i1 := mkItem 11 (bs "TAttFill") (attfill_marshal (mkFill 3 1001)) (OFill (mkFill 3 1001)) in
  let i2 := mkItem 22 (bs "TAttLine") (attline_marshal (mkLine 1 2 3)) (OLine (mkLine 1 2 3)) in
  let i3 := mkItem 33 (bs "TAttFill") (attfill_marshal (mkFill 4 7)) (OFill (mkFill 4 7)) in
  firsts [] [i1; i2; i3; i1] = [Some (i_value i1); Some (i_value i2); Some (i_value i3); None] /\
  (b <-? wrun 0 (write_u8 9 ;;; iterM (fun i => write_object_any (i_class i) (i_id i) (i_body i) ;;; ret tt)
                                  [i1; i2; i3; i1]) ;;
   rrun 0 (read_u8 ;;; repeatM 4 (roa 2)) b)
  = Ok [Some (i_value i1); Some (i_value i2); Some (i_value i3); None].
Proof. cbv zeta. split; vm_compute; reflexivity. Qed.

(** ** C23: newer versions *)
Theorem C23_newer_versions_refused fuel class max v w before after off refs sk :
  In (class, max) newest -> max < v < 2 ^ 15 -> announces v w ->
  um (S fuel) class (mkR (before ++ w ++ after) (zlen before) off refs sk) = Err EVersionTooHigh.
Proof. intros H1 H2 H3. exact (newest_refused fuel class max v w before after off refs sk H1 H2 H3). Qed.

(** Records that are part of others. *)
Theorem C23_inner_records_refused v w before after off refs sk :
  announces v w -> v < 2 ^ 15 ->
  let r := mkR (before ++ w ++ after) (zlen before) off refs sk in
  (4 < v -> elem_unmarshal r = Err EVersionTooHigh) /\
  (1 < v -> iobits_unmarshal r = Err EVersionTooHigh) /\
  (2 < v -> forall ro, tleaf_unmarshal ro r = Err EVersionTooHigh).
Proof.
  intros Ha Hv. cbv zeta.
  split; [|split]; intros Hm; try intros ro; eapply (refuses_gate _ v); auto; lia.
Qed.

Example C23_tree_21 : In (bs "TTree", 20) newest /\ announces 21 [64; 0; 1; 0; 0; 21].
Proof.
  split; [unfold newest; cbn; tauto|].
  exists 256, (be 4 1073742080), (be 2 21). split; [lia|]. split; [apply be_big_endian|].
  split; [apply be_big_endian|reflexivity].
Qed.

(** ** C24: unknown classes *)
Theorem C24_registered_classes c : known c = true <-> In c registered.
Proof. exact (known_registered c). Qed.

(** An object introduced by an unknown class name, of any length and of any bytes. *)
Theorem C24_unknown_class_refused fuel c count tag w4 before after off refs sk :
  ~ In 0 c -> ~ In c registered ->
  2 ^ 30 <= count < 2 ^ 31 -> big_endian 4 count w4 -> big_endian 4 (2 ^ 32 - 1) tag ->
  roa fuel (mkR (before ++ (w4 ++ tag ++ c ++ [0]) ++ after) (zlen before) off refs sk)
  = Err EClassNotRegistered.
Proof.
  intros Hc Hn Hcnt E1 E2. apply big_endian_be in E1, E2. subst w4 tag.
  apply unknown_refused_any; [lia|exact Hc| |reflexivity|].
  - destruct (known c) eqn:E; [|reflexivity]. apply known_registered in E. contradiction.
  - intros c' L. destruct (known c') eqn:E; [|reflexivity]. apply known_registered in E. exfalso.
    assert (A : Forall (fun x => zlen x < 80) registered)
      by (unfold registered; repeat (constructor; [vm_compute; reflexivity|]); constructor).
    pose proof (proj1 (Forall_forall _ _) A c' E). cbv beta in *. lia.
Qed.

(** A key of an unknown class: no object is ever returned. *)
Theorem C24_unknown_key_refused d k o : ~ In (k_class k) registered -> key_object d k <> Ok o.
Proof.
  intros Hn. unfold key_object. destruct (key_bytes d k); cbn; try discriminate.
  destruct (known (k_class k)) eqn:E; [|discriminate]. apply known_registered in E. contradiction.
Qed.

Example C24_th1f : ~ In 0 (bs "TH1F") /\ ~ In (bs "TH1F") registered.
Proof.
  split; [cbn; intuition discriminate|].
  rewrite <- known_registered. vm_compute. congruence.
Qed.
(** Ninety bytes that are not even text. *)
Example C24_long : ~ In 0 (repeat 255 90) /\ ~ In (repeat 255 90) registered.
Proof.
  split; [intros H; apply repeat_spec in H; discriminate|].
  rewrite <- known_registered. vm_compute. congruence.
Qed.

(** ** C35: attributes, names, object headers *)
Theorem C35_fill_survives a : - 2 ^ 15 <= af_color a < 2 ^ 15 -> - 2 ^ 15 <= af_style a < 2 ^ 15 ->
  round_trip 10 (attfill_marshal a) attfill_unmarshal a.
Proof. intros H1 H2. apply rt_round_trip, attfill_rt. split; red; lia. Qed.
Theorem C35_line_survives a : - 2 ^ 15 <= al_color a < 2 ^ 15 -> - 2 ^ 15 <= al_style a < 2 ^ 15 ->
  - 2 ^ 15 <= al_width a < 2 ^ 15 -> round_trip 12 (attline_marshal a) attline_unmarshal a.
Proof. intros H1 H2 H3. apply rt_round_trip, attline_rt. split; [red; lia|split; red; lia]. Qed.
Theorem C35_marker_survives a : - 2 ^ 15 <= am_color a < 2 ^ 15 -> - 2 ^ 15 <= am_style a < 2 ^ 15 ->
  0 <= am_width a < 2 ^ 32 -> round_trip 14 (attmarker_marshal a) attmarker_unmarshal a.
Proof. intros H1 H2 H3. apply rt_round_trip, attmarker_rt. split; [red; lia|split; red; lia]. Qed.
Theorem C35_io_features_survive v : 0 <= v < 256 ->
  round_trip (if v =? 0 then 7 else 11) (iobits_marshal v) iobits_unmarshal v.
Proof. intros H. now apply rt_round_trip, iobits_rt. Qed.
(** The object header: the reader sets the "on heap" bit; the identifier of an
    unreferenced object is kept. *)
Theorem C35_object_header_survives o :
  0 <= o_id o < 2 ^ 32 -> 0 <= o_bits o < 2 ^ 32 -> Z.testbit (o_bits o) 4 = false ->
  round_trip 10 (obj_marshal o) obj_unmarshal (Obj.mkObj (o_id o) (Z.lor (o_bits o) (2 ^ 24))).
Proof.
  intros H1 H2 H3. apply rt_round_trip.
  assert (E : Z.land (o_bits o) kIsReferenced = 0).
  { change kIsReferenced with (2 ^ 4). apply Z.bits_inj'. intros n Hn. rewrite Z.land_spec, Z.bits_0.
    destruct (Z.eq_dec n 4) as [->|]; [now rewrite H3|]. rewrite Z.pow2_bits_false by lia. apply andb_false_r. }
  pose proof (obj_rt o (conj H1 H2)) as R. unfold obj_len, obj_seen in R. rewrite E in R. exact R.
Qed.
Theorem C35_names_survive n :
  0 <= o_id (n_obj n) < 2 ^ 32 -> 0 <= o_bits (n_obj n) < 2 ^ 32 -> text (n_name n) -> text (n_title n) ->
  exists n', object_round_trip (named_marshal n) named_unmarshal n' /\
             n_name n' = n_name n /\ n_title n' = n_title n.
Proof.
  intros H1 H2 H3 H4. exists (named_seen n). split; [|split; reflexivity].
  eapply sim_object_round_trip, named_sim. split; [split; [exact H1|exact H2]|].
  split; now apply text_str_ok.
Qed.

Example C35_default_object : Z.testbit (o_bits obj_default) 4 = false.
Proof. reflexivity. Qed.

(** ** C36: branch descriptions.  The branch is read back with the same name,
    title, sizes, counts, basket tables and element description; its leaves come
    back with the same kind, name, title, length, type size, offset and bounds. *)
Definition branch_survives (b : wbr) (r : branch) : Prop :=
  let c := wb_core b in
  let c' := br_core r in
  n_name (b_named c') = n_name (b_named c) /\ n_title (b_named c') = n_title (b_named c) /\
  b_fill c' = b_fill c /\ b_compress c' = b_compress c /\ b_bsize c' = b_bsize c /\ b_eol c' = b_eol c /\
  b_wb c' = b_wb c /\ b_entrynum c' = b_entrynum c /\ b_iobits c' = b_iobits c /\ b_offset c' = b_offset c /\
  b_split c' = b_split c /\ b_entries c' = b_entries c /\ b_first c' = b_first c /\ b_tot c' = b_tot c /\
  b_zip c' = b_zip c /\ b_bytes c' = b_bytes c /\ b_entry c' = b_entry c /\ b_seek c' = b_seek c /\
  b_fname c' = b_fname c /\ br_elem r = wb_elem b /\ br_subs r = [] /\ br_baskets r = [] /\
  Forall2 (fun al l =>
    let t := lf_t (snd al) in let t' := lf_t l in
    lf_kind l = lf_kind (snd al) /\ lf_a l = lf_a (snd al) /\ lf_b l = lf_b (snd al) /\
    n_name (tl_named t') = n_name (tl_named t) /\ n_title (tl_named t') = n_title (tl_named t) /\
    tl_len t' = (if tl_len t =? 0 then 1 else tl_len t) /\ tl_etype t' = tl_etype t /\
    tl_offset t' = tl_offset t /\ tl_hasrange t' = tl_hasrange t /\ tl_unsigned t' = tl_unsigned t)
    (wb_leaves b) (br_leaves r).

Theorem C36_branches_survive fuel b : wbr_ok b ->
  exists r, object_round_trip (wbr_marshal b) (um (S (S fuel)) (wb_class b)) (OBranch r) /\
            branch_survives b r.
Proof.
  intros H. exists (wbr_seen b). split.
  - eapply sim_object_round_trip, wbr_sim, H.
  - unfold branch_survives. cbv zeta. repeat (split; [reflexivity|]).
    unfold wbr_seen. cbn [br_leaves]. induction (wb_leaves b) as [|al l IH]; constructor; auto.
    repeat split.
Qed.

(** A branch with eleven baskets (the table grows past its minimum of ten) and a leaf. *)
Example C36_eleven_baskets :
  wbr_ok (mkWBr
    (mkBC (new_named (bs "x") (bs "x/I")) attfill_default 0 32000 0 11 300 0 0 0 0 300 0 1200 1200
       (repeat 150 11) (map Z.of_nat (seq 0 12)) (map (fun n => 1000 + 200 * Z.of_nat n) (seq 0 11)) [])
    None
    [(1, mkLeaf LKI (mkTL (new_named (bs "x") (bs "x")) 1 4 0 false false) (-2147483648) 2147483647)]).
Proof.
  split.
  - unfold bcore_ok, named_ok, obj_ok, attfill_ok, str_ok, is_u32, is_i16, is_i32, is_i64, is_u8. cbn.
    rewrite !zlen_def. cbn.
    repeat match goal with |- _ /\ _ => split | |- Forall _ _ => repeat constructor end;
    try lia; try reflexivity.
  - split; [discriminate|]. split.
    + constructor; [|constructor]. split; [discriminate|].
      unfold tleaf_ok, named_ok, obj_ok, str_ok, is_u32. cbn. unfold is_i32.
      rewrite !zlen_def. cbn.
      repeat match goal with |- _ /\ _ => split end; try lia; try reflexivity.
    + split; [repeat constructor; intros []|rewrite zlen_def; cbn; lia].
Qed.

(** ** C37: streamer information *)
Theorem C37_streamers_survive fuel l : Forall sinfo_ok l -> zlen l < 2 ^ 31 ->
  object_round_trip (sinfos_marshal l) (um (S (S (S (S fuel)))) (bs "TList"))
    (OList [] (map (fun si => OSInfo (sinfo_seen si)) l)) /\
  map (fun si => si_name (sinfo_seen si)) l = map si_name l /\
  map (fun si => si_chksum (sinfo_seen si)) l = map si_chksum l /\
  map (fun si => si_clsver (sinfo_seen si)) l = map si_clsver l /\
  map (fun si => map s_class (si_elems (sinfo_seen si))) l = map (fun si => map s_class (si_elems si)) l /\
  map (fun si => map (fun s => n_name (e_named (s_elem s))) (si_elems (sinfo_seen si))) l
  = map (fun si => map (fun s => n_name (e_named (s_elem s))) (si_elems si)) l /\
  map (fun si => map (fun s => e_ename (s_elem s)) (si_elems (sinfo_seen si))) l
  = map (fun si => map (fun s => e_ename (s_elem s)) (si_elems si)) l.
Proof.
  intros H Hl. split.
  - eapply sim_object_round_trip, sim0_sim, sinfos_sim; assumption.
  - split; [reflexivity|]. split; [reflexivity|]. split; [reflexivity|].
    repeat split; apply map_ext; intros si; unfold sinfo_seen; cbn [si_elems]; rewrite map_map;
      apply map_ext; intros s; destruct s; cbn; try reflexivity; unfold basic_seen;
      destruct (basic_size _); reflexivity.
Qed.

Example C37_builtin_table : Forall sinfo_ok table /\ zlen table < 2 ^ 31 /\ 10 < zlen table.
Proof. split; [exact table_ok|]. rewrite zlen_def. vm_compute. split; reflexivity. Qed.

(** ** C38: reads stay inside the buffer *)
Theorem C38_scalar_reads_stay_inside p r z r' : read_prim p r = Ok (z, r') ->
  exists w, takes r r' w /\ length w = scalar_bytes p /\
    (Forall (fun b => 0 <= b < 256) (rp r) ->
     scalar p z /\
     match p with PBool => z = 0 <-> w = [0] | _ => big_endian (scalar_bytes p) z w end).
Proof.
  intros H. apply read_prim_takes in H as (w & T & L & _ & D). exists w. auto.
Qed.

(** A string that is not UTF-8 is read as the empty string. *)
Theorem C38_string_reads_stay_inside r s r' :
  Forall (fun b => 0 <= b < 256) (rp r) -> read_string r = Ok (s, r') ->
  exists w l, takes r r' w /\
    (w = zlen l :: l \/ exists n4, big_endian 4 (zlen l) n4 /\ w = 255 :: n4 ++ l) /\
    (utf8 l /\ s = l \/ ~ utf8 l /\ s = []).
Proof.
  intros Hb H. apply read_string_takes in H as (w & l & T & _ & L & U); [|exact Hb]. exists w, l. auto.
Qed.

Theorem C38_value_reads_stay_inside t r v r' :
  Forall (fun b => 0 <= b < 256) (rp r) -> rskip r = None -> 0 <= rc r <= zlen (rp r) ->
  unmarshal t r = Ok (v, r') -> exists w, takes r r' w.
Proof.
  intros Hb Hs Hc H. destruct (unmarshal_takes t r v r' Hb Hs Hc H) as (w & T & _). eauto.
Qed.

(** A class name without its final NUL moves the position past the end. *)
Theorem C38_cstring_refuted :
  exists r c r', read_cstring 80 r = Ok (c, r') /\ zlen (rp r') < rc r'.
Proof. exists (r_new [84; 65] 0), [84; 65], (mkR [84; 65] 3 0 [] None). vm_compute. split; reflexivity. Qed.

Example C38_case : exists z r', read_prim I16 (mkR [9; 255; 254; 7] 1 0 [] None) = Ok (z, r') /\ z = -2 /\ rc r' = 3.
Proof. vm_compute. eauto. Qed.
