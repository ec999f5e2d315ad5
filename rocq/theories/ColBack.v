(** What reading back a written column gives. *)
From Verif Require Export TreeOps.

(** ** Baskets *)
Lemma basket_reads k ns n last : key_ok k -> 0 <= ns < 2147483648 -> is_i32 n -> is_i32 last ->
  reads basket_unmarshal (khdr k ++ bfields ns n last)
    (mkBasket (key_seen k) n last ns (if 32768 <? last then last else 32768) []).
Proof.
  intros K Hs Hn Hl sk. destruct (khdr_ok k K) as (_ & _ & _ & RK). unfold basket_unmarshal, bfields.
  eapply reads_bind; [apply RK|].
  eapply reads_bind; [apply reads_sint; [lia|red; change (256 ^ Z.of_nat 2 / 2) with 32768; lia]|].
  change (ensure_max 3 3) with (@ret rbuf unit tt).
  rewrite <- (app_nil_l (be 4 32768 ++ _)). eapply reads_bind; [apply reads_ret|].
  eapply reads_bind; [apply reads_sint; [lia|red; change (256 ^ Z.of_nat 4 / 2) with 2147483648; lia]|].
  eapply reads_bind; [apply reads_sint; [lia|red; change (256 ^ Z.of_nat 4 / 2) with 2147483648; lia]|].
  destruct (Z.ltb_spec ns 0); [lia|].
  rewrite <- (app_nil_l (be 4 n ++ _)). eapply reads_bind; [apply reads_ret|].
  eapply reads_bind; [apply reads_sint; [lia|exact Hn]|].
  eapply reads_bind; [apply reads_sint; [lia|exact Hl]|].
  rewrite <- (app_nil_r (be 1 0)).
  eapply reads_bind; [apply (reads_uint 1 0); red; change (256 ^ Z.of_nat 1) with 256; lia|].
  cbv zeta. change (80 <=? 0) with false. change (0 =? 0) with true. change (0 =? 1) with false. change (10 <? 0) with false.
  cbn [negb andb orb].
  rewrite <- (app_nil_l []). eapply reads_bind; [apply reads_ret|].
  rewrite <- (app_nil_l []). eapply reads_bind; [apply reads_ret|]. apply reads_ret.
Qed.

(** ** Offsets *)
Lemma chunks4_be fuel l : (length l < fuel)%nat -> chunks4 fuel (flat_map (be 4) l) = Ok (map (be 4) l).
Proof.
  revert fuel; induction l as [|z l IH]; intros [|fuel] H; cbn [length] in H; try lia; [reflexivity|].
  cbn [flat_map map]. assert (E : exists a b c d, be 4 z = [a; b; c; d]).
  { unfold be; do 4 eexists; reflexivity. }
  destruct E as (a & b & c & d & E). rewrite E. cbn [app chunks4]. rewrite IH by lia. reflexivity.
Qed.

Lemma de_be_i32 z : is_i32 z -> to_i32 (de (be 4 z)) = z.
Proof.
  intros H. rewrite de_be. unfold to_i32, wrap_s, wrap_u. rewrite Z.mod_mod by (pose proof (pow256_pos 4); lia).
  apply sgn_mod; [lia|exact H].
Qed.

Lemma res_map_ok {A B} (g : A -> res B) (h : A -> B) l : (forall a, In a l -> g a = Ok (h a)) -> res_map g l = Ok (map h l).
Proof.
  induction l as [|a l IH]; intros H; [reflexivity|]. cbn [res_map map]. rewrite H by now left. cbn [rbind].
  rewrite IH by (intros; apply H; now right). reflexivity.
Qed.

Lemma starts_bounds p t vs : forall z, In z (starts p t vs) -> p <= z <= p + zlen (ents t vs).
Proof.
  revert p; induction vs as [|v vs IH]; intros p z; cbn [starts ents flat_map]; [intros []|].
  rewrite zlen_app. fold (ents t vs). pose proof (zlen_nonneg (ent t v)). pose proof (zlen_nonneg (ents t vs)).
  intros [<-|H1]; [lia|]. apply IH in H1. lia.
Qed.
Lemma starts_shift p q t vs : map (fun z => z - q) (starts p t vs) = starts (p - q) t vs.
Proof.
  revert p; induction vs as [|v vs IH]; intros p; cbn [starts map]; [reflexivity|].
  rewrite IH. do 2 f_equal. lia.
Qed.

Lemma slices_ok t vs : forall pre post,
  slices (pre ++ ents t vs ++ post) (starts (zlen pre) t vs ++ [zlen pre + zlen (ents t vs)]) = Ok (map (ent t) vs).
Proof.
  induction vs as [|v vs IH]; intros pre post; cbn [starts app map]; [reflexivity|].
  cbn [ents flat_map]. fold (ents t vs). rewrite zlen_app, Z.add_assoc.
  specialize (IH (pre ++ ent t v) post). rewrite zlen_app in IH. rewrite <- app_assoc in IH. rewrite <- app_assoc.
  assert (HS : slice (pre ++ ent t v ++ ents t vs ++ post) (zlen pre) (zlen pre + zlen (ent t v)) = Ok (ent t v)).
  { unfold slice. rewrite !zlen_app. pose proof (zlen_nonneg pre). pose proof (zlen_nonneg (ent t v)).
    pose proof (zlen_nonneg (ents t vs)). pose proof (zlen_nonneg post).
    replace (_ && _ && _) with true by (symmetry; lia).
    replace (zlen pre + zlen (ent t v) - zlen pre) with (zlen (ent t v)) by lia. now rewrite zsub_mid. }
  destruct vs as [|v2 vs].
  - cbn [starts app] in *. cbn [slices]. cbn [ents flat_map app] in *. rewrite (@zlen_nil Z) in *. rewrite Z.add_0_r in *.
    rewrite HS. reflexivity.
  - cbn [starts app] in *. cbn [slices] in *. rewrite HS. cbn [rbind]. rewrite IH. reflexivity.
Qed.

Lemma zsub_head {A} (a b : list A) : zsub (a ++ b) 0 (zlen a) = a.
Proof. pose proof (zsub_mid [] a b) as H. rewrite zlen_nil in H. exact H. Qed.

(** ** The contents of a basket on disk *)
Definition bdata_for (t : ty) (vs : list val) : bdata :=
  if vsize t then UnTrust (zlen vs) (ents t vs) (starts 0 t vs ++ [zlen (ents t vs)])
  else Trust (zlen vs) (ents t vs).

Section Basket.
Variables (D : bytes) (name tn : bytes) (t : ty) (cycle seek ns : Z) (vs : list val).
Hypotheses (C : col_ty t) (N : names_ok name tn (bs "TBasket")) (CY : is_i16 cycle) (NS : 0 <= ns < 2147483648)
  (W : Forall (wt t) vs) (HS : 100 <= seek) (HE : seek + (bkl name tn + zlen (payload name tn t vs)) <= kStartBigFile)
  (SG : seg D seek (brec name tn t cycle seek ns vs)) (HD : zlen D < 2 ^ 63).

Definition bread : basket :=
  let last := bkl name tn + zlen (ents t vs) in
  mkBasket (key_seen (bkey name tn t cycle seek vs)) (zlen vs) last ns (if 32768 <? last then last else 32768) [].

Lemma basket_back : read_at D seek (bkl name tn + zlen (payload name tn t vs)) = Ok (brec name tn t cycle seek ns vs) /\
  rrun 0 basket_unmarshal (brec name tn t cycle seek ns vs) = Ok bread.
Proof using C N CY NS W HS HE SG HD.
  pose proof (bkl_bounds _ _ N). pose proof (ents_len t vs C W). pose proof (zlen_nonneg vs).
  assert (zlen (ents t vs) <= zlen (payload name tn t vs)).
  { unfold payload. rewrite zlen_app. pose proof (zlen_nonneg (trailer (bkl name tn) t vs)). lia. }
  unfold kStartBigFile in HE. split.
  - apply read_at_ok; [exact SG|apply brec_len; auto; unfold kStartBigFile; lia|exact HD].
  - unfold brec. apply reads_rrun. apply basket_reads; [apply mk_key_good; auto; unfold kStartBigFile; exact HE|lia|red; lia|red; lia].
Qed.

Lemma trailer_len : zlen (trailer (bkl name tn) t vs) = if vsize t then 4 * (zlen vs + 2) else 0.
Proof using Type.
  unfold trailer. destruct (vsize t); [|apply zlen_nil].
  rewrite !zlen_app, !zlen_be, (flat_map_len _ 4) by (intros; apply zlen_be).
  rewrite (zlen_def (starts _ _ _)), starts_length, <- zlen_def. lia.
Qed.

Lemma raw_back : raw_data D bread = Ok (bdata_for t vs).
Proof using C N CY NS W HS HE SG HD.
  pose proof (bkl_bounds _ _ N) as HK. pose proof (ents_len t vs C W) as HL. pose proof (zlen_nonneg vs) as HV.
  pose proof trailer_len as TL. assert (PL : zlen (payload name tn t vs) = zlen (ents t vs) + zlen (trailer (bkl name tn) t vs)).
  { unfold payload. apply zlen_app. }
  unfold kStartBigFile in HE. set (kl := bkl name tn) in *. set (p := payload name tn t vs) in *. pose proof (zlen_nonneg p) as HP.
  pose proof (zlen_nonneg (trailer kl t vs)) as HT.
  unfold raw_data, bread. cbv zeta. cbn [bk_key bk_last bk_nevbuf].
  set (k := key_seen _). assert (K1 : k_keylen k = kl) by reflexivity. assert (K2 : k_objlen k = zlen p) by reflexivity.
  assert (KB : key_bytes D k = Ok p).
  { unfold key_bytes. rewrite K1, K2. change (k_nbytes k) with (kl + zlen p). change (k_seek k) with seek.
    destruct (Z.eqb_spec (zlen p) (kl + zlen p - kl)); [|lia].
    rewrite u64_add_small by lia. cbn [rbind].
    assert (KO : key_ok (bkey name tn t cycle seek vs)) by (apply mk_key_good; auto).
    pose proof SG as S2. unfold brec in S2. apply seg_app_r in S2. rewrite zlen_app, bfields_len, (proj1 (khdr_ok _ KO)), bhdr_len in S2 by exact N.
    now apply read_at_ok. }
  rewrite KB. cbn [unwrap rbind]. rewrite K1, K2. fold kl. unfold sub_i32. rewrite add_i32_ok by (red; lia). cbn [rbind].
  replace (kl + zlen (ents t vs) + - kl) with (zlen (ents t vs)) by lia.
  unfold bdata_for. assert (EP : p = ents t vs ++ trailer kl t vs) by reflexivity. clearbody p. subst p. rewrite TL in PL. destruct (vsize t) eqn:V.
  - destruct (Z.eqb_spec (zlen (ents t vs)) (zlen (ents t vs ++ trailer kl t vs))); [lia|].
    replace (_ || _) with false by (symmetry; lia).
    rewrite zsub_tail by reflexivity.
    rewrite zsub_head.
    assert (ET : trailer kl t vs = flat_map (be 4) ((zlen vs + 1) :: starts kl t vs ++ [0])).
    { unfold trailer. rewrite V. cbn [flat_map]. rewrite flat_map_app. cbn [flat_map]. now rewrite app_nil_r. }
    rewrite ET at 2. rewrite chunks4_be.
    2:{ cbn [length]. rewrite app_length, starts_length. cbn [length]. rewrite (zlen_def (_ ++ _)), (zlen_def vs) in PL. lia. }
    cbn [rbind].
    assert (RM : forall l, (forall z, In z l -> 0 <= z < 2147483648) ->
      res_map (fun c => add_i32 (to_i32 (de c)) (- kl)) (map (be 4) l) = Ok (map (fun z => z - kl) l)).
    { induction l as [|z l IH]; intros HB; [reflexivity|]. cbn [map res_map]. pose proof (HB z (or_introl eq_refl)).
      rewrite de_be_i32 by (red; lia). rewrite add_i32_ok by (red; lia). cbn [rbind].
      rewrite IH by (intros; apply HB; now right). reflexivity. }
    rewrite RM.
    2:{ intros z [<-|HZ]; [lia|]. apply in_app_iff in HZ as [HZ|[<-|[]]]; [apply starts_bounds in HZ; lia|lia]. }
    cbn [rbind map tl]. rewrite map_app. cbn [map]. rewrite rev_app_distr. cbn [rev app]. rewrite rev_involutive.
    rewrite starts_shift, Z.sub_diag. reflexivity.
  - assert (ET : trailer kl t vs = []) by (unfold trailer; now rewrite V). rewrite ET, app_nil_r, Z.eqb_refl. reflexivity.
Qed.
End Basket.

(** ** One chunk *)
Definition leaf_kind_seen (l : leaf) (t : ty) : Prop := lf_kind l = kind_for t.

Lemma kind_c t : col_ty t -> match kind_for t with LKC => true | _ => false end = match t with TString => true | _ => false end.
Proof. destruct t as [p| |t|n t]; try reflexivity; [destruct p; reflexivity|]. destruct t as [p| | |]; cbn; try contradiction. destruct p; reflexivity. Qed.
Lemma kind_elem t : col_ty t -> match kind_for t with LKElement => true | _ => false end = match t with TVec _ => true | _ => false end.
Proof. destruct t as [p| |t|n t]; try reflexivity; [destruct p; reflexivity|]. destruct t as [p| | |]; cbn; try contradiction. destruct p; reflexivity. Qed.

(** Entries of a vector column that the reader takes apart correctly: the first byte of
    the byte count, with its flag, is 64. *)
Definition ent_small (t : ty) (v : val) : Prop :=
  match t with TVec _ => (zlen (enc t v) + 2) mod 2 ^ 30 < 2 ^ 24 | _ => True end.

Lemma be4_top z : be 4 z = ((z / 16777216) mod 256) :: be 3 z.
Proof. reflexivity. Qed.

Lemma add_lor z : 0 <= z < 2 ^ 30 -> z + 2 ^ 30 = Z.lor z (2 ^ 30).
Proof.
  intros H. rewrite Z.add_nocarry_lxor; [apply Z.lxor_lor|];
    (apply Z.bits_inj'; intros n Hn; rewrite Z.land_spec, Z.bits_0;
     destruct (Z.eq_dec n 30) as [->|Hne];
     [rewrite (Z.bits_above_log2 z 30); [reflexivity|lia|];
      destruct (Z.eq_dec z 0) as [->|]; [reflexivity|apply Z.log2_lt_pow2; lia]
     |rewrite Z.pow2_bits_false by lia; apply andb_false_r]).
Qed.
Lemma lor_mask z : 0 <= z < 2 ^ 31 -> Z.lor z kByteCountMask = z mod 2 ^ 30 + 2 ^ 30.
Proof.
  intros H. change kByteCountMask with (2 ^ 30). rewrite add_lor by (apply Z.mod_pos_bound; lia).
  apply Z.bits_inj'. intros n Hn. rewrite !Z.lor_spec. destruct (Z.lt_trichotomy n 30) as [L|[->|L]].
  - now rewrite Z.mod_pow2_bits_low by lia.
  - rewrite Z.pow2_bits_true by lia. now rewrite !orb_true_r.
  - rewrite Z.mod_pow2_bits_high by lia. rewrite (Z.bits_above_log2 z n); [reflexivity|lia|].
    destruct (Z.eq_dec z 0) as [->|]; [cbn; lia|]. apply Z.log2_lt_pow2; [lia|]. apply Z.lt_le_trans with (2 ^ 31); [lia|].
    apply Z.pow_le_mono_r; lia.
Qed.
Lemma top_byte z : 0 <= z < 2 ^ 30 -> ((z + 2 ^ 30) / 16777216) mod 256 = 64 + z / 2 ^ 24.
Proof.
  intros H. change (2 ^ 30) with (64 * 16777216) at 1. rewrite Z.div_add by lia. change (2 ^ 24) with 16777216.
  assert (0 <= z / 16777216 < 64). { split; [apply Z.div_pos; lia|apply Z.div_lt_upper_bound; [lia|]]. change (2 ^ 30) with (16777216 * 64) in H. lia. }
  rewrite Z.mod_small by lia. lia.
Qed.

Lemma vec_entry_back t v : wt (TVec t) v -> zlen (enc (TVec t) v) + 2 < 2 ^ 31 -> ent_small (TVec t) v ->
  rrun 0 (set_skip_header (Some 6) ;;; unmarshal (TVec t)) (ent (TVec t) v) = Ok v.
Proof.
  intros T BD SM. assert (HP := zlen_nonneg (enc (TVec t) v)). cbn [ent_small] in SM.
  destruct v as [z|s|l]; cbn [wt] in T; try contradiction. destruct T as [HL HF].
  set (v := VList l) in *. cbn [ent]. rewrite lor_mask by lia. rewrite be4_top.
  assert (HM : 0 <= (zlen (enc (TVec t) v) + 2) mod 2 ^ 30 < 2 ^ 30) by (apply Z.mod_pos_bound; lia).
  rewrite top_byte, (Z.div_small _ (2 ^ 24)) by lia. rewrite Z.add_0_r.
  set (w := enc (TVec t) v) in *. generalize ((zlen w + 2) mod 2 ^ 30 + 2 ^ 30). intros X.
  set (h := (64 :: be 3 X) ++ be 2 9).
  assert (EB : (64 :: be 3 X) ++ be 2 9 ++ w = h ++ w) by (unfold h; now rewrite <- app_assoc).
  assert (LH : zlen h = 6) by reflexivity.
  rewrite EB.
  unfold rrun, r_new. unfold set_skip_header, modify. unfold bind at 1. unfold r_set_skip. cbn [rp rc roff rrefs].
  cbn [unmarshal]. unfold bind at 1.
  assert (SK : do_skip_header (mkR (h ++ w) 0 0 [] (Some 6)) = Ok (tt, mkR (h ++ w) 6 0 [] (Some 6))).
  { unfold do_skip_header. cbn [rskip]. unfold r_len. cbn [rp rc]. rewrite zlen_app, LH.
    replace (6 + zlen w - 0 <? 6) with false by (symmetry; lia).
    replace ((1 <? 6 + zlen w - 0) && (1 <? 6)) with true by (symmetry; lia).
    assert (RU : reads read_u8 (be 1 64) 64) by (intros sk; apply (reads_uint 1 64); red; change (256 ^ Z.of_nat 1) with 256; lia).
    assert (EH : h ++ w = [] ++ be 1 64 ++ (tl h ++ w)) by reflexivity.
    pose proof (RU (Some 6) [] (tl h ++ w) 0 []) as RU1. rewrite <- EH in RU1.
    rewrite (@zlen_nil Z) in RU1. rewrite (bind_Ok _ _ _ _ _ RU1).
    reflexivity. }
  rewrite SK.
  assert (RD : reads_sk (Some 6) read_i32 (be 4 (zlen l)) (zlen l)).
  { apply reads_sint; [lia|]. pose proof (zlen_nonneg l). red. change (256 ^ Z.of_nat 4 / 2) with 2147483648. lia. }
  unfold w, v. cbn [enc]. specialize (RD h (flat_map (enc t) l) 0 []). rewrite LH in RD.
  rewrite (bind_Ok _ _ _ _ _ RD).
  pose proof (zlen_nonneg l). destruct (Z.ltb_spec (zlen l) 0); [lia|].
  unfold set_skip_header, modify. unfold bind at 1. unfold r_set_skip. cbn [rp rc roff rrefs].
  assert (RR : reads_sk None (repeatM (length l) (unmarshal t)) (flat_map (enc t) l) l).
  { apply reads_repeat. intros a Ha. apply reads_unmarshal. eapply Forall_forall; eauto. }
  specialize (RR (h ++ be 4 (zlen l)) [] 0 []). rewrite zlen_app, LH in RR. rewrite app_nil_r in RR.
  rewrite <- app_assoc in RR.
  replace (Z.to_nat (zlen l)) with (length l) by (rewrite zlen_def; lia).
  rewrite (bind_Ok _ _ _ _ _ RR). reflexivity.
Qed.

Lemma repeatM_length {S A} (m : M S A) n : forall s l s', repeatM n m s = Ok (l, s') -> length l = n.
Proof.
  induction n as [|n IH]; intros s l s' H; cbn [repeatM] in H; [now injection H as <- _|].
  unfold bind at 1 in H. destruct (m s) as [[a s1]| | | |]; try discriminate.
  unfold bind in H. destruct (repeatM n m s1) as [[l1 s2]| | | |] eqn:E; try discriminate. injection H as <- _.
  cbn [length]. now rewrite (IH _ _ _ E).
Qed.

(** Any other entry is misread. *)
Lemma vec_entry_wrong t l : wt (TVec t) (VList l) -> zlen (enc (TVec t) (VList l)) + 2 < 2 ^ 31 ->
  zlen l <= zlen (enc (TVec t) (VList l)) -> ~ ent_small (TVec t) (VList l) ->
  rrun 0 (set_skip_header (Some 6) ;;; unmarshal (TVec t)) (ent (TVec t) (VList l)) <> Ok (VList l).
Proof.
  intros T BD LB SM. assert (HP := zlen_nonneg (enc (TVec t) (VList l))). cbn [ent_small] in SM.
  set (v := VList l) in *. cbn [ent]. rewrite lor_mask by lia.
  assert (HM : 0 <= (zlen (enc (TVec t) v) + 2) mod 2 ^ 30 < 2 ^ 30) by (apply Z.mod_pos_bound; lia).
  set (w := enc (TVec t) v) in *.
  assert (XB : zlen w + 2 <= (zlen w + 2) mod 2 ^ 30 + 2 ^ 30).
  { pose proof (Z.div_mod (zlen w + 2) (2 ^ 30) ltac:(lia)) as DM.
    assert ((zlen w + 2) / 2 ^ 30 < 2) by (apply Z.div_lt_upper_bound; lia). lia. }
  revert SM HM XB. generalize ((zlen w + 2) mod 2 ^ 30). intros X SM HM XB.
  set (B := be 4 (X + 2 ^ 30) ++ be 2 9 ++ w).
  unfold rrun, r_new. unfold set_skip_header, modify. unfold bind at 1. unfold r_set_skip. cbn [rp rc roff rrefs].
  cbn [unmarshal]. unfold bind at 1.
  assert (LB4 : zlen B = 6 + zlen w) by (unfold B; rewrite !zlen_app, !zlen_be; lia).
  assert (SK : do_skip_header (mkR B 0 0 [] (Some 6)) = Ok (tt, mkR B 0 0 [] (Some 6))).
  { unfold do_skip_header. cbn [rskip]. unfold r_len. cbn [rp rc]. rewrite LB4.
    replace (6 + zlen w - 0 <? 6) with false by (symmetry; lia).
    replace ((1 <? 6 + zlen w - 0) && (1 <? 6)) with true by (symmetry; lia).
    set (c := 64 + X / 2 ^ 24).
    assert (C1 : 1 <= X / 2 ^ 24 < 64). { split; [apply Z.div_le_lower_bound; lia|apply Z.div_lt_upper_bound; [lia|]]. change (2 ^ 24 * 64) with (2 ^ 30). lia. }
    assert (RU : reads read_u8 (be 1 c) c) by (intros sk; apply (reads_uint 1 c); red; change (256 ^ Z.of_nat 1) with 256; unfold c; lia).
    assert (EH : B = [] ++ be 1 c ++ (be 3 (X + 2 ^ 30) ++ be 2 9 ++ w)).
    { unfold B. rewrite be4_top, top_byte by lia. fold c. cbn [app]. change (be 1 c) with [(c / 1) mod 256]. rewrite Z.div_1_r.
      rewrite Z.mod_small by (unfold c; lia). reflexivity. }
    pose proof (RU (Some 6) [] (be 3 (X + 2 ^ 30) ++ be 2 9 ++ w) 0 []) as RU1. rewrite <- EH in RU1.
    rewrite (@zlen_nil Z) in RU1. rewrite (bind_Ok _ _ _ _ _ RU1).
    destruct (Z.eqb_spec c 64) as [E|_]; [unfold c in E; lia|]. reflexivity. }
  rewrite SK.
  assert (RD : reads_sk (Some 6) read_i32 (be 4 (X + 2 ^ 30)) (X + 2 ^ 30)).
  { apply reads_sint; [lia|]. red. change (256 ^ Z.of_nat 4 / 2) with 2147483648. lia. }
  specialize (RD [] (be 2 9 ++ w) 0 []). rewrite (@zlen_nil Z) in RD. cbn [app] in RD. fold B in RD.
  rewrite (bind_Ok _ _ _ _ _ RD).
  destruct (Z.ltb_spec (X + 2 ^ 30) 0); [lia|].
  unfold set_skip_header, modify. unfold bind at 1. unfold r_set_skip. cbn [rp rc roff rrefs].
  unfold bind at 1. match goal with |- context[repeatM ?n ?m ?s] => destruct (repeatM n m s) as [[l' s']| | | |] eqn:E end; try discriminate.
  apply repeatM_length in E. cbn [ret]. intros HX. injection HX as ->. pose proof (zlen_def l) as ZL. lia.
Qed.

(** What reading one entry of a column gives. *)
Definition eread (t : ty) (v : val) : res val :=
  match t with TVec _ => unwrap (rrun 0 (set_skip_header (Some 6) ;;; unmarshal t) (ent t v)) | _ => Ok v end.

Lemma eread_ok t v : wt t v -> zlen (ent t v) < 2 ^ 31 -> ent_small t v -> eread t v = Ok v.
Proof.
  destruct t as [p| |t|n t]; try reflexivity. intros W B S. unfold eread. rewrite vec_entry_back; auto.
  cbn [ent] in B. rewrite !zlen_app in B. change (zlen (be 2 9)) with 2 in B. rewrite zlen_be in B. lia.
Qed.
Lemma eread_wrong t v : col_ty t -> wt t v -> zlen (ent t v) < 2 ^ 31 -> ~ ent_small t v -> eread t v <> Ok v.
Proof.
  destruct t as [p| |t|n t]; try (intros _ _ _ S; now destruct S). intros C W B S. unfold eread.
  destruct v as [z|s|l]; try contradiction.
  assert (zlen l <= zlen (enc (TVec t) (VList l))) as LL.
  { destruct t as [p| | |]; try contradiction. destruct W as [_ W].
    change (enc (TVec (TPrim p)) (VList l)) with (be 4 (zlen l) ++ flat_map (enc (TPrim p)) l). rewrite zlen_app.
    pose proof (zlen_nonneg (be 4 (zlen l))). enough (zlen l <= zlen (flat_map (enc (TPrim p)) l)) by lia.
    clear - W. induction W as [|v l H W IH]; [reflexivity|]. cbn [flat_map]. rewrite zlen_cons, zlen_app.
    rewrite (enc_fixed (TPrim p) _ eq_refl v H). destruct p; cbn [prim_size]; lia. }
  assert (zlen (enc (TVec t) (VList l)) + 2 < 2 ^ 31) as B2.
  { cbn [ent] in B. rewrite !zlen_app in B. change (zlen (be 2 9)) with 2 in B. rewrite zlen_be in B. lia. }
  pose proof (vec_entry_wrong t l W B2 LL S) as X. intros E. apply X. destruct (rrun _ _ _); cbn [unwrap] in E; congruence.
Qed.
Lemma eread_err t v e : eread t v <> Err e.
Proof. unfold eread. destruct t; try discriminate. destruct (rrun _ _ _); discriminate. Qed.

Lemma res_map_all {A} (g : A -> res A) l : Forall (fun a => g a = Ok a) l -> res_map g l = Ok l.
Proof. induction 1 as [|a l E F IH]; [reflexivity|]. cbn [res_map]. rewrite E. cbn [rbind]. now rewrite IH. Qed.
Lemma res_map_same {A} (g : A -> res A) l : res_map g l = Ok l -> Forall (fun a => g a = Ok a) l.
Proof.
  induction l as [|a l IH]; intros H; [constructor|]. cbn [res_map] in H.
  destruct (g a) as [b| | | |] eqn:E; try discriminate. cbn [rbind] in H. destruct (res_map g l) as [m| | | |]; try discriminate.
  injection H as -> ->. constructor; auto.
Qed.
Lemma res_map_err {A B} (g : A -> res B) l e : (forall a, g a <> Err e) -> res_map g l <> Err e.
Proof.
  intros H. induction l as [|a l IH]; [discriminate|]. cbn [res_map]. specialize (H a). destruct (g a); cbn [rbind]; try congruence.
  destruct (res_map g l); cbn [rbind]; congruence.
Qed.
Lemma res_map_app {A B} (g : A -> res B) l m : res_map g (l ++ m) = (a <-? res_map g l ;; b <-? res_map g m ;; Ok (a ++ b)).
Proof.
  induction l as [|x l IH]; cbn [app res_map rbind]; [now destruct (res_map g m)|].
  destruct (g x); cbn [rbind]; try reflexivity. rewrite IH. destruct (res_map g l); cbn [rbind]; try reflexivity.
  now destruct (res_map g m).
Qed.
Lemma res_map_map {A B C} (g : B -> res C) (h : A -> B) l : res_map g (map h l) = res_map (fun a => g (h a)) l.
Proof. induction l as [|x l IH]; [reflexivity|]. cbn [map res_map]. now rewrite IH. Qed.

(** The class descriptions do not mislead the reader of a vector column. *)
Definition sis_for (sis : list sinfo) (t : ty) : Prop :=
  match w_class t, t with
  | Some c, TVec _ => forall si, sinfo_get sis c = Some si ->
      Forall (fun s => exists e a b, s = SStl e a b /\ e_ename e = c) (si_elems si)
  | _, _ => True
  end.

Lemma vec_class p : p <> PBool -> w_class (TVec (TPrim p)) = Some (bs "vector<" ++ prim_name p ++ bs ">").
Proof. destruct p; [reflexivity..|congruence]. Qed.
Lemma vec_class_facts p : p <> PBool ->
  let c := bs "vector<" ++ prim_name p ++ bs ">" in
  clean_type_name c = Ok c /\ parse_typename c = Ok 6 /\ str_ok c.
Proof.
  intros H. destruct p; try congruence; (split; [vm_compute; reflexivity|]; split; [vm_compute; reflexivity|];
    split; [rewrite zlen_def; vm_compute; reflexivity|vm_compute; reflexivity]).
Qed.

Lemma br_streamer_vec sis p b c : p <> PBool -> sis_for sis (TVec (TPrim p)) -> c = bs "vector<" ++ prim_name p ++ bs ">" ->
  forall e, be_class e = c ->
  br_streamer sis b e = None \/ exists el a d, br_streamer sis b e = Some (SStl el a d) /\ e_ename el = c.
Proof.
  intros H S Hc e HE. unfold sis_for in S. rewrite vec_class in S by exact H. unfold br_streamer. rewrite HE, Hc.
  destruct (sinfo_get sis _) as [si|] eqn:E; [|left; reflexivity].
  destruct (find _ (si_elems si)) as [s|] eqn:F; [|left; reflexivity]. right.
  specialize (S _ eq_refl). apply find_some in F as [F _]. rewrite Forall_forall in S.
  destruct (S s F) as (el & a & d & -> & E2). exists el, a, d. split; [reflexivity|exact E2].
Qed.

(** What the reader sees of a written column. *)
Definition col_branch (c : wcol) : branch :=
  Br true (bcore_seen (wc_core c)) (wc_elem c) [] [leaf_seen (wc_leaf c)] [].

Lemma read_regular t n size vs : n = zlen vs -> Forall (wt t) vs ->
  read_chunk (unmarshal t) (Regular n size (flat_map (enc t) vs)) = Ok vs.
Proof.
  intros -> W. unfold read_chunk. pose proof (zlen_nonneg vs). destruct (Z.ltb_spec (zlen vs) 0); [lia|].
  replace (Z.to_nat (zlen vs)) with (length vs) by (rewrite zlen_def; lia).
  assert (RR : reads_sk None (repeatM (length vs) (unmarshal t)) (flat_map (enc t) vs) vs).
  { apply reads_repeat. intros a Ha. apply reads_unmarshal. eapply Forall_forall; eauto. }
  specialize (RR [] [] 0 []). rewrite (@zlen_nil Z), app_nil_r in RR. cbn [app] in RR.
  unfold rrun, r_new. rewrite RR. reflexivity.
Qed.

Section Column.
Variables (D : bytes) (sis : list sinfo) (path name tn : bytes) (t : ty) (recs : list bytes).
Hypotheses (C : col_ty t) (N : names_ok name tn (bs "TBasket")) (P : path_ok path)
  (SG : seg D (E0 path) (concat recs)) (HD : zlen D < 2 ^ 63) (SI : sis_for sis t).

Lemma at_rec_seg seek r : at_rec path recs seek r -> seg D seek r /\ 100 <= seek.
Proof using P SG.
  clear SI. intros (pre & post & -> & ->). pose proof (E0_pos path P). pose proof (rsize_nonneg pre). split; [|lia].
  rewrite concat_app in SG. apply seg_app_r in SG. cbn [concat] in SG. now apply seg_app_l in SG.
Qed.

Lemma chunk_back b size l i d : 0 <= i < 32767 -> br_elem b = elem_for t -> lf_kind l = kind_for t ->
  dones_ok path name tn t recs i [d] ->
  exists ch, basket_chunk D sis b (d_seek d) (d_nbytes name tn t d) size l = Ok ch /\
    read_chunk (unmarshal t) ch = res_map (eread t) (d_vals d).
Proof using C N P SG HD SI.
  intros Hi HE HK (A & NS & HB & W & _). destruct (at_rec_seg _ _ A) as (SD & H100).
  assert (CY : is_i16 (i + 1)) by (red; lia). unfold d_nbytes in *.
  destruct (basket_back D name tn t (i + 1) (d_seek d) (d_ns d) (d_vals d) C N CY NS W H100 HB SD HD) as (RA & RU).
  pose proof (raw_back D name tn t (i + 1) (d_seek d) (d_ns d) (d_vals d) C N CY NS W H100 HB SD HD) as RB.
  unfold basket_chunk. rewrite RA. cbn [unwrap rbind]. rewrite RU. cbn [unwrap rbind]. rewrite RB. cbn [rbind].
  unfold leaf_is_c, leaf_is_elem. rewrite HK, (kind_c t C), (kind_elem t C). unfold bdata_for.
  destruct t as [p| |t'|n t'] eqn:ET.
  - cbn [vsize]. eexists. split; [reflexivity|]. rewrite (res_map_all (eread _) (d_vals d)) by (apply Forall_forall; reflexivity). now apply read_regular.
  - cbn [vsize]. eexists. split; [reflexivity|]. rewrite (res_map_all (eread _) (d_vals d)) by (apply Forall_forall; reflexivity). now apply read_regular.
  - cbn [vsize]. destruct t' as [p| | |]; cbn [col_ty] in C; try contradiction.
    rewrite HE. unfold elem_for. rewrite vec_class by exact C. cbn [option_map].
    set (e := mkBE _ _ _ _ _ _ _ _ _). set (cl := bs "vector<" ++ prim_name p ++ bs ">") in *.
    assert (HH : header_bytes_from_type (be_stype e) (br_streamer sis b e) (be_class e) = Ok 6).
    { destruct (vec_class_facts p C) as (_ & PT & _). fold cl in PT.
      destruct (br_streamer_vec sis p b cl C SI eq_refl e eq_refl) as [-> |(el & x & y & -> & _)];
        exact PT. }
    rewrite HH. cbn [rbind].
    pose proof (slices_ok (TVec (TPrim p)) (d_vals d) [] []) as SL. rewrite (@zlen_nil Z), app_nil_r in SL. cbn [app] in SL.
    rewrite Z.add_0_l in SL. rewrite SL. cbn [rbind]. eexists. split; [reflexivity|].
    unfold read_chunk. rewrite res_map_map. reflexivity.
  - cbn [vsize]. eexists. split; [reflexivity|]. rewrite (res_map_all (eread _) (d_vals d)) by (apply Forall_forall; reflexivity). now apply read_regular.
Qed.

Lemma zip4_cols (sz : Z) (l : leaf) (ds : list wdone) :
  zip4 (map d_seek ds) (map (d_nbytes name tn t) ds) (repeat sz (length ds)) (repeat l (length ds))
  = map (fun d => (d_seek d, d_nbytes name tn t d, sz, l)) ds.
Proof. induction ds as [|d ds IH]; [reflexivity|]. cbn [map length repeat zip4]. now rewrite IH. Qed.

Lemma chunks_back b sz l : br_elem b = elem_for t -> lf_kind l = kind_for t -> forall ds i,
  0 <= i -> i + zlen ds <= 32767 -> dones_ok path name tn t recs i ds ->
  exists chs, res_map (fun '(seek, len, size, l) => basket_chunk D sis b seek len size l)
      (filter (fun '(_, len, _, _) => 0 <? len) (map (fun d => (d_seek d, d_nbytes name tn t d, sz, l)) ds)) = Ok chs /\
    (ls <-? res_map (read_chunk (unmarshal t)) chs ;; Ok (concat ls)) = res_map (eread t) (d_all ds).
Proof using C N P SG HD SI.
  intros HE HK. induction ds as [|d ds IH]; intros i Hi HL DO.
  - exists []. split; reflexivity.
  - rewrite zlen_cons in HL. destruct DO as (H1 & H2 & H3 & H4 & H5).
    pose proof (zlen_nonneg ds) as Hds.
    destruct (IH (i + 1) ltac:(lia) ltac:(lia) H5) as (chs & E1 & E2).
    destruct (chunk_back b sz l i d ltac:(lia) HE HK (conj H1 (conj H2 (conj H3 (conj H4 I))))) as (ch & X1 & X2).
    assert (NB : 0 < d_nbytes name tn t d).
    { unfold d_nbytes. pose proof (bkl_bounds _ _ N). pose proof (zlen_nonneg (payload name tn t (d_vals d))). lia. }
    exists (ch :: chs). cbn [map filter]. destruct (Z.ltb_spec 0 (d_nbytes name tn t d)); [|lia].
    cbn [res_map]. rewrite X1. cbn [rbind]. rewrite E1. cbn [rbind]. split; [reflexivity|].
    unfold d_all. cbn [flat_map]. fold (d_all ds). rewrite res_map_app, <- E2, X2.
    destruct (res_map (eread t) (d_vals d)); cbn [rbind]; try reflexivity.
    destruct (res_map (read_chunk (unmarshal t)) chs); reflexivity.
Qed.

(** Any branch that lists the baskets [ds], the first of which has cycle [i + 1]. *)
Lemma get_basket_gen b l ds i : 0 <= i -> i + zlen ds <= 32767 -> (1 <= length ds)%nat ->
  br_elem b = elem_for t -> br_subs b = [] -> br_leaves b = [l] -> br_baskets b = [] -> lf_kind l = kind_for t ->
  b_seek (br_core b) = map d_seek ds -> b_bytes (br_core b) = map (d_nbytes name tn t) ds ->
  dones_ok path name tn t recs i ds ->
  get_basket D sis (unmarshal t) b = res_map (eread t) (d_all ds).
Proof using C N P SG HD SI.
  intros Hi HL H1 HE HS HLf HB LK SK BY DO.
  unfold get_basket. rewrite HS. unfold baskets_buffer.
  assert (ES : sizes_for b = Ok (repeat (tl_etype (lf_t l)) (length ds))).
  { unfold sizes_for. rewrite HLf, SK. cbn [map length]. rewrite map_length.
    destruct (Nat.eqb_spec 1 (length ds)) as [E|_]; [rewrite <- E; reflexivity|].
    cbn [app]. destruct ds as [|d ds]; [cbn in H1; lia|]. cbn [length repeat].
    replace (S (length ds) - 1)%nat with (length ds) by lia. reflexivity. }
  assert (EL : leaves_for b = Ok (repeat l (length ds))).
  { unfold leaves_for. rewrite HLf, SK. now rewrite map_length. }
  assert (EM : embedded_chunk sis b = Ok []) by (unfold embedded_chunk; now rewrite HB).
  rewrite ES, EL, EM. cbn [rbind]. rewrite SK, BY, zip4_cols.
  destruct (chunks_back b (tl_etype (lf_t l)) l HE LK ds i Hi HL DO) as (chs & E1 & E2).
  rewrite E1. exact E2.
Qed.

Lemma get_basket_back c ds : zlen ds <= 32767 -> (1 <= length ds)%nat ->
  col_core path name tn t recs ds (zlen (d_all ds)) c ->
  get_basket D sis (unmarshal t) (col_branch c) = res_map (eread t) (d_all ds).
Proof using C N P SG HD SI.
  intros HL H1 (HT & HE & HLf & (mb & tot & en & EC & _) & DO & _).
  apply (get_basket_gen _ (leaf_seen (wc_leaf c)) _ 0); auto; try lia.
  - exact (leaf_st_kind _ _ _ C HLf).
  - cbn [col_branch br_core]. rewrite EC. reflexivity.
  - cbn [col_branch br_core]. rewrite EC. reflexivity.
Qed.

(** One basket of the column on its own. *)
Definition col_only (seek len : Z) (b : branch) : branch :=
  let '(Br top c e subs ls bks) := b in
  Br top (mkBC (b_named c) (b_fill c) (b_compress c) (b_bsize c) (b_eol c) (b_wb c) (b_entrynum c) (b_iobits c) (b_offset c)
    (b_maxb c) (b_split c) (b_entries c) (b_first c) (b_tot c) (b_zip c) [len] (b_entry c) [seek] (b_fname c)) e subs ls bks.

Lemma dones_split i ds : dones_ok path name tn t recs i ds -> forall a d b, ds = a ++ d :: b ->
  dones_ok path name tn t recs (i + zlen a) [d].
Proof using Type.
  intros H a d b ->. revert i H. induction a as [|x a IH]; intros i H.
  - destruct H as (H1 & H2 & H3 & H4 & _). cbn [app]. rewrite (@zlen_nil wdone), Z.add_0_r. cbn [dones_ok]. auto.
  - destruct H as (_ & _ & _ & _ & H). specialize (IH _ H). rewrite zlen_cons.
    replace (i + (1 + zlen a)) with (i + 1 + zlen a) by lia. exact IH.
Qed.

Lemma only_back c a d b : zlen (a ++ d :: b) <= 32767 ->
  col_core path name tn t recs (a ++ d :: b) (zlen (d_all (a ++ d :: b))) c ->
  get_basket D sis (unmarshal t) (col_only (d_seek d) (d_nbytes name tn t d) (col_branch c)) = res_map (eread t) (d_vals d).
Proof using C N P SG HD SI.
  intros HL (HT & HE & HLf & (mb & tot & en & EC & _) & DO & _). rewrite zlen_app, zlen_cons in HL.
  pose proof (zlen_nonneg a). pose proof (zlen_nonneg b).
  replace (d_vals d) with (d_all [d]) by (unfold d_all; cbn [flat_map]; apply app_nil_r).
  apply (get_basket_gen _ (leaf_seen (wc_leaf c)) [d] (zlen a)); auto; try lia; try reflexivity.
  - change (zlen [d]) with 1. lia.
  - exact (leaf_st_kind _ _ _ C HLf).
  - rewrite <- (Z.add_0_l (zlen a)). eapply dones_split; [exact DO|reflexivity].
Qed.
End Column.
