(** Reading looks only at the bytes of what is read. *)
From Verif Require Import Base RBuf Values Key Obj RObj TreeObj File Column ColRead Spec SpecTree SpecDamage FileLay FileFacts.

Lemma nth_ext_eq {A} (l m : list A) : (forall j, nth_error l j = nth_error m j) -> l = m.
Proof.
  revert m; induction l as [|a l IH]; intros m H.
  - destruct m as [|b m]; [reflexivity|]. specialize (H 0%nat). discriminate.
  - destruct m as [|b m]; [specialize (H 0%nat); discriminate|]. pose proof (H 0%nat) as H0. injection H0 as ->. f_equal.
    apply IH. intros j. exact (H (S j)).
Qed.
Lemma nth_skipn {A} (l : list A) i j : nth_error (skipn i l) j = nth_error l (i + j).
Proof. revert l; induction i as [|i IH]; intros l; [reflexivity|]. destruct l as [|a l]; [now destruct j|]. cbn [skipn]. apply IH. Qed.
Lemma nth_firstn {A} (l : list A) n j : nth_error (firstn n l) j = if (j <? n)%nat then nth_error l j else None.
Proof.
  revert l j; induction n as [|n IH]; intros l j; [now destruct j|]. destruct l as [|a l]; [destruct j; [reflexivity|cbn [firstn nth_error]; now destruct (_ <? _)%nat]|].
  destruct j as [|j]; [reflexivity|]. cbn [firstn nth_error]. rewrite IH. reflexivity.
Qed.

Lemma zsub_same d d' p n : 0 <= p -> untouched d d' p n -> zsub d p n = zsub d' p n.
Proof.
  intros P U. unfold zsub. apply nth_ext_eq. intros j. rewrite !nth_firstn, !nth_skipn.
  destruct (Nat.ltb_spec j (Z.to_nat n)); [|reflexivity]. specialize (U (p + Z.of_nat j) ltac:(lia)).
  replace (Z.to_nat (p + Z.of_nat j)) with (Z.to_nat p + j)%nat in U by lia. exact U.
Qed.

Lemma untouched_part d d' p n q m : untouched d d' p n -> p <= q -> q + m <= p + n -> untouched d d' q m.
Proof. intros U A B i I. apply U. lia. Qed.

Lemma untouched_long d d' p n : 0 <= p -> 0 < n -> untouched d d' p n -> p + n <= zlen d -> p + n <= zlen d'.
Proof.
  intros P N U H. specialize (U (p + n - 1) ltac:(lia)). rewrite zlen_def in *. assert (nth_error d' (Z.to_nat (p + n - 1)) <> None) as X.
  { rewrite <- U. apply nth_error_Some. lia. }
  apply nth_error_Some in X. lia.
Qed.
Lemma untouched_sym d d' p n : untouched d d' p n -> untouched d' d p n.
Proof. intros U i I. symmetry. now apply U. Qed.

Lemma read_at_same d d' p n : 0 <= p < 2 ^ 63 -> 0 <= n < 2 ^ 63 -> untouched d d' p n -> read_at d' p n = read_at d p n.
Proof.
  intros P N U. unfold read_at. rewrite (to_u64_small p), (to_u64_small n) by lia.
  replace ((n =? 0) || (p + n <=? zlen d')) with ((n =? 0) || (p + n <=? zlen d)).
  2: { destruct (Z.eqb_spec n 0) as [|N0]; [reflexivity|]. cbn [orb]. pose proof (untouched_long d d' p n ltac:(lia) ltac:(lia) U).
       pose proof (untouched_long d' d p n ltac:(lia) ltac:(lia) (untouched_sym _ _ _ _ U)). destruct (Z.leb_spec (p + n) (zlen d)), (Z.leb_spec (p + n) (zlen d')); lia. }
  rewrite (zsub_same d d' p n) by (auto; lia). reflexivity.
Qed.

Lemma key_bytes_same {L : decoders} d d' k : 0 <= k_seek k < 2 ^ 62 -> 0 <= k_nbytes k < 2 ^ 31 -> 0 <= k_keylen k <= k_nbytes k ->
  untouched d d' (k_seek k) (k_nbytes k) -> key_bytes d' k = key_bytes d k.
Proof.
  intros S N K U. unfold key_bytes.
  assert (SA : u64_add (to_u64 (k_seek k)) (to_u64 (k_keylen k)) = Ok (k_seek k + k_keylen k)).
  { unfold u64_add. rewrite !to_u64_small by lia. destruct (Z.ltb_spec (k_seek k + k_keylen k) (2 ^ 64)); [reflexivity|lia]. }
  assert (UU : untouched d d' (k_seek k + k_keylen k) (k_nbytes k - k_keylen k)) by (apply (untouched_part _ _ _ _ _ _ U); lia).
  destruct (Z.eqb_spec (k_objlen k) (k_nbytes k - k_keylen k)) as [O|O].
  - rewrite SA. cbn [rbind]. rewrite O. apply read_at_same; auto; lia.
  - destruct (k_nbytes k - k_keylen k <? -2147483648); [reflexivity|]. destruct (k_objlen k <? 0); [reflexivity|].
    rewrite SA. cbn [rbind].
    assert (SB : u64_sub (to_u64 (k_nbytes k)) (to_u64 (k_keylen k)) = Ok (k_nbytes k - k_keylen k)).
    { unfold u64_sub. rewrite !to_u64_small by lia. destruct (Z.leb_spec (k_keylen k) (k_nbytes k)); [reflexivity|lia]. }
    rewrite SB. cbn [rbind]. rewrite (read_at_same d d') by (auto; lia). reflexivity.
Qed.

Lemma key_object_same {L : decoders} d d' k : 0 <= k_seek k < 2 ^ 62 -> 0 <= k_nbytes k < 2 ^ 31 -> 0 <= k_keylen k <= k_nbytes k ->
  untouched d d' (k_seek k) (k_nbytes k) -> key_object d' k = key_object d k.
Proof. intros S N K U. unfold key_object. now rewrite (key_bytes_same d d' k S N K U). Qed.

Lemma rbind_ext {A B} (m : res A) (g h : A -> res B) : (forall a, g a = h a) -> rbind m g = rbind m h.
Proof. intros H. destruct m; cbn [rbind]; auto. Qed.

Section Col.
Context {L : decoders}.
Variables (d d' : bytes) (sis : list sinfo).

Definition kept (s n : Z) : Prop := says_its_place d s n /\ untouched d d' s n.

Lemma chunk_same b s n size l : kept s n -> basket_chunk d' sis b s n size l = basket_chunk d sis b s n size l.
Proof.
  intros ((S & N & I) & U). unfold basket_chunk. rewrite (read_at_same d d') by (auto; lia).
  destruct (read_at d s n) as [buf|?| | |] eqn:R; try reflexivity. cbn [unwrap rbind].
  assert (buf = zsub d s n) as ->.
  { unfold read_at in R. rewrite !to_u64_small in R by lia. destruct (2 ^ 63 <=? s); [discriminate|]. destruct (2 ^ 63 <=? n); [discriminate|].
    destruct (_ || _); [|discriminate]. injection R as <-. reflexivity. }
  destruct (rrun 0 basket_unmarshal (zsub d s n)) as [bk|?| | |] eqn:B; try reflexivity. cbn [unwrap rbind].
  destruct (I bk eq_refl) as (I1 & I2 & I3). unfold raw_data. rewrite (key_bytes_same d d'); [reflexivity|lia|lia|lia|]. now rewrite I1, I2.
Qed.

Lemma zip4_in {A B C D} (a : list A) (b : list B) (c : list C) (e : list D) x y z u : In (x, y, z, u) (zip4 a b c e) -> In (x, y) (combine a b).
Proof.
  revert b c e; induction a as [|a0 a IH]; intros [|b0 b] [|c0 c] [|e0 e]; cbn [zip4 combine In]; try tauto.
  intros [Q|Q]; [left; now injection Q as -> -> _ _|right; eauto].
Qed.

Lemma res_map_ext {A B} (g h : A -> res B) l : (forall a, In a l -> g a = h a) -> res_map g l = res_map h l.
Proof.
  induction l as [|a l IH]; intros H; cbn [res_map]; [reflexivity|]. rewrite (H a (or_introl eq_refl)), IH; [reflexivity|].
  intros x X. apply H. now right.
Qed.

Lemma buffer_same b : (forall s n, In (s, n) (own_baskets b) -> kept s n) -> baskets_buffer d' sis b = baskets_buffer d sis b.
Proof.
  intros K. unfold baskets_buffer. apply rbind_ext. intros sz. apply rbind_ext. intros ls. apply rbind_ext. intros em.
  rewrite (res_map_ext (fun '(seek, len, size, l) => basket_chunk d' sis b seek len size l) (fun '(seek, len, size, l) => basket_chunk d sis b seek len size l)); [reflexivity|].
  intros [[[s n] size] l] I. apply filter_In in I as [I _]. apply zip4_in in I. apply chunk_same. now apply K.
Qed.

Lemma as_base_baskets b : own_baskets (as_base b) = own_baskets b.
Proof. now destruct b. Qed.

Lemma get_same {A} (func : R A) b : (forall s n, In (s, n) (read_baskets b) -> kept s n) -> get_basket d' sis func b = get_basket d sis func b.
Proof.
  unfold get_basket, read_baskets. destruct (br_subs b) as [|s0 subs] eqn:SB; intros K.
  - now rewrite buffer_same.
  - rewrite (res_map_ext (fun s => baskets_buffer d' sis (as_base s)) (fun s => baskets_buffer d sis (as_base s))); [reflexivity|].
    intros s I. apply buffer_same. rewrite as_base_baskets. intros p n J. apply K. apply in_flat_map. exists s. auto.
Qed.

Lemma iter_same t b : (forall s n, In (s, n) (read_baskets b) -> kept s n) -> as_iter d' sis t b = as_iter d sis t b.
Proof. intros K. unfold as_iter. rewrite (get_same (unmarshal t) b K). reflexivity. Qed.
End Col.
