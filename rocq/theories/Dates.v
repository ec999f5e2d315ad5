(** The packed dates of keys and directories determine the second they stand for. *)
From Verif Require Import File Key.

Lemma lor_shift a k b : 0 <= k -> 0 <= b < 2 ^ k -> Z.lor (Z.shiftl a k) b = a * 2 ^ k + b.
Proof.
  intros Hk Hb.
  assert (L : Z.land (Z.shiftl a k) b = 0).
  { apply Z.bits_inj'. intros n Hn. rewrite Z.land_spec, Z.bits_0.
    destruct (Z_lt_dec n k).
    - rewrite Z.shiftl_spec_low by lia. reflexivity.
    - assert (E : Z.testbit b n = false).
      { destruct (Z.eq_dec b 0) as [->|]; [apply Z.testbit_0_l|].
        apply Z.bits_above_log2; [lia|]. assert (Z.log2 b < k) by (apply Z.log2_lt_pow2; lia). lia. }
      rewrite E. apply andb_false_r. }
  rewrite <- Z.lxor_lor by exact L. rewrite <- Z.add_nocarry_lxor by exact L.
  now rewrite Z.shiftl_mul_pow2 by lia.
Qed.

Definition civil_ok (c : civil) : Prop :=
  1995 <= c_year c <= 2058 /\ 1 <= c_month c <= 12 /\ 1 <= c_day c <= 31 /\
  0 <= c_hour c < 24 /\ 0 <= c_min c < 60 /\ 0 <= c_sec c < 60.

Lemma packed c : civil_ok c ->
  datetime_to_u32 c
  = Some ((c_year c - 1995) * 67108864 + c_month c * 4194304 + c_day c * 131072
          + c_hour c * 4096 + c_min c * 64 + c_sec c).
Proof.
  destruct c as [y m d h mi s]. intros (Hy & Hm & Hd & Hh & Hmi & Hs). unfold datetime_to_u32.
  cbn [c_year c_month c_day c_hour c_min c_sec] in *.
  replace (y <? 1995) with false by (symmetry; lia). f_equal.
  rewrite (lor_shift mi 6 s) by lia.
  rewrite (lor_shift h 12) by lia. rewrite (lor_shift d 17) by lia.
  rewrite (lor_shift m 22) by lia. rewrite (lor_shift (y - 1995) 26) by lia.
  change (2 ^ 26) with 67108864. change (2 ^ 22) with 4194304. change (2 ^ 17) with 131072.
  change (2 ^ 12) with 4096. change (2 ^ 6) with 64.
  unfold to_u32, wrap_u. change (256 ^ Z.of_nat 4) with 4294967296. rewrite Z.mod_small by lia. lia.
Qed.

Lemma packed_inj c c' : civil_ok c -> civil_ok c' -> datetime_to_u32 c = datetime_to_u32 c' -> c = c'.
Proof.
  intros H H' E. rewrite !packed in E by assumption. injection E as E.
  destruct c as [y m d h mi s], c' as [y' m' d' h' mi' s'].
  destruct H as (Hy & Hm & Hd & Hh & Hmi & Hs), H' as (Hy' & Hm' & Hd' & Hh' & Hmi' & Hs').
  cbn [c_year c_month c_day c_hour c_min c_sec] in *.
  assert (y = y') by lia. subst. assert (m = m') by lia. subst. assert (d = d') by lia. subst.
  assert (h = h') by lia. subst. assert (mi = mi') by lia. subst. assert (s = s') by lia. now subst.
Qed.

(** ** The calendar: the days of a 400-year cycle *)
Definition yoe_of (doe : Z) : Z := (doe - doe / 1460 + doe / 36524 - doe / 146096) / 365.
Definition doy_of (doe : Z) : Z := doe - (365 * yoe_of doe + yoe_of doe / 4 - yoe_of doe / 100).
Definition mp_of (doy : Z) : Z := (5 * doy + 2) / 153.

Lemma doy_range doe : 0 <= doe < 146097 -> 0 <= yoe_of doe < 400 /\ 0 <= doy_of doe <= 365.
Proof.
  intros H. unfold doy_of. destruct (Z.eq_dec doe 146096) as [->|].
  { vm_compute. intuition congruence. }
  split; [unfold yoe_of; lia|].
  unfold yoe_of. assert (doe / 146096 = 0) as -> by lia.
  assert (doe / 36524 = 0 \/ doe / 36524 = 1 \/ doe / 36524 = 2 \/ doe / 36524 = 3)
    as [E|[E|[E|E]]] by lia; rewrite E;
  set (y := (doe - doe / 1460 + _ - 0) / 365);
  assert (y / 100 = 0 \/ y / 100 = 1 \/ y / 100 = 2 \/ y / 100 = 3 \/ y / 100 = 4)
    as [F|[F|[F|[F|F]]]] by lia; rewrite F; unfold y in *; clear y; lia.
Qed.

Lemma cycle_day doe : 0 <= doe < 146097 ->
  0 <= yoe_of doe < 400 /\ 0 <= doy_of doe <= 365 /\ 0 <= mp_of (doy_of doe) <= 11 /\
  1 <= doy_of doe - (153 * mp_of (doy_of doe) + 2) / 5 + 1 <= 31.
Proof.
  intros H. apply doy_range in H as [H1 H2]. split; [exact H1|]. split; [exact H2|].
  unfold mp_of. set (d := doy_of doe) in *. clearbody d. lia.
Qed.

Lemma civil_shape ts :
  let doe := (ts / 86400 + 719468) mod 146097 in
  let era := (ts / 86400 + 719468) / 146097 in
  let m := if mp_of (doy_of doe) <? 10 then mp_of (doy_of doe) + 3 else mp_of (doy_of doe) - 9 in
  civil_of_ts ts =
    mkCivil (if m <=? 2 then yoe_of doe + era * 400 + 1 else yoe_of doe + era * 400) m
      (doy_of doe - (153 * mp_of (doy_of doe) + 2) / 5 + 1)
      (ts mod 86400 / 3600) (ts mod 86400 mod 3600 / 60) (ts mod 86400 mod 60).
Proof.
  cbv zeta. unfold civil_of_ts. cbv zeta.
  replace (ts / 86400 + 719468 - (ts / 86400 + 719468) / 146097 * 146097)
    with ((ts / 86400 + 719468) mod 146097) by (rewrite Z.mod_eq by lia; lia).
  reflexivity.
Qed.

(** Two instants with the same calendar fields are the same second. *)
Lemma civil_inj ts ts' : civil_of_ts ts = civil_of_ts ts' -> ts = ts'.
Proof.
  rewrite !civil_shape. cbv zeta.
  pose proof (Z.mod_pos_bound (ts / 86400 + 719468) 146097 ltac:(lia)) as B.
  pose proof (Z.mod_pos_bound (ts' / 86400 + 719468) 146097 ltac:(lia)) as B'.
  pose proof (Z.div_mod (ts / 86400 + 719468) 146097 ltac:(lia)) as D.
  pose proof (Z.div_mod (ts' / 86400 + 719468) 146097 ltac:(lia)) as D'.
  set (doe := (ts / 86400 + 719468) mod 146097) in *.
  set (doe' := (ts' / 86400 + 719468) mod 146097) in *.
  set (era := (ts / 86400 + 719468) / 146097) in *. set (era' := (ts' / 86400 + 719468) / 146097) in *.
  pose proof (cycle_day doe ltac:(lia)) as (Y & DY & MP & DD).
  pose proof (cycle_day doe' ltac:(lia)) as (Y' & DY' & MP' & DD').
  assert (Edoe : doe = doy_of doe + (365 * yoe_of doe + yoe_of doe / 4 - yoe_of doe / 100)) by (unfold doy_of; lia).
  assert (Edoe' : doe' = doy_of doe' + (365 * yoe_of doe' + yoe_of doe' / 4 - yoe_of doe' / 100)) by (unfold doy_of; lia).
  clearbody doe doe' era era'.
  set (yo := yoe_of doe) in *. set (yo' := yoe_of doe') in *.
  set (dy := doy_of doe) in *. set (dy' := doy_of doe') in *.
  set (mp := mp_of dy) in *. set (mp' := mp_of dy') in *. clearbody yo yo' mp mp' dy dy'.
  intros E. injection E as E1 E2 E3 E4 E5 E6.
  assert (mp = mp').
  { destruct (Z.ltb_spec mp 10), (Z.ltb_spec mp' 10); lia. }
  subst mp'. assert (Edy : dy = dy') by lia. subst dy'.
  assert (Ey : yo + era * 400 = yo' + era' * 400).
  { destruct ((if mp <? 10 then mp + 3 else mp - 9) <=? 2); lia. }
  assert (era = era') by lia. subst era'. assert (yo = yo') by lia. subst yo'.
  assert (doe = doe') by lia. subst doe'.
  assert (Eday : ts / 86400 = ts' / 86400) by lia.
  assert (Esod : ts mod 86400 = ts' mod 86400).
  { assert (F : forall s, s mod 60 = s mod 3600 mod 60).
    { intros s. change 3600 with (60 * 60). rewrite Z.rem_mul_r by lia.
      rewrite Z.mul_comm, Z.mod_add by lia. now rewrite Z.mod_mod by lia. }
    rewrite (F (ts mod 86400)), (F (ts' mod 86400)) in E6.
    rewrite (Z.div_mod (ts mod 86400) 3600), (Z.div_mod (ts' mod 86400) 3600) by lia.
    rewrite E4. f_equal.
    rewrite (Z.div_mod (ts mod 86400 mod 3600) 60), (Z.div_mod (ts' mod 86400 mod 3600) 60) by lia.
    congruence. }
  rewrite (Z.div_mod ts 86400), (Z.div_mod ts' 86400) by lia. congruence.
Qed.

Lemma civil_ranges ts : 1995 <= c_year (civil_of_ts ts) <= 2058 -> civil_ok (civil_of_ts ts).
Proof.
  intros Hy. split; [exact Hy|]. rewrite civil_shape. cbv zeta.
  cbn [c_year c_month c_day c_hour c_min c_sec].
  pose proof (Z.mod_pos_bound (ts / 86400 + 719468) 146097 ltac:(lia)) as B.
  pose proof (cycle_day _ B) as (Y & DY & MP & DD).
  set (mp := mp_of _) in *. clearbody mp.
  split; [destruct (Z.ltb_spec mp 10); lia|]. split; [exact DD|]. clear.
  pose proof (Z.mod_pos_bound ts 86400 ltac:(lia)). set (s := ts mod 86400) in *. clearbody s. lia.
Qed.

Lemma date_word_inj ts ts' :
  1995 <= c_year (civil_of_ts ts) <= 2058 -> 1995 <= c_year (civil_of_ts ts') <= 2058 ->
  date_word ts = date_word ts' -> ts = ts'.
Proof.
  intros H H' E. apply civil_inj. apply packed_inj; [now apply civil_ranges|now apply civil_ranges|].
  unfold date_word in E. rewrite packed in E by now apply civil_ranges.
  rewrite (packed (civil_of_ts ts')) in E by now apply civil_ranges.
  rewrite !packed by now apply civil_ranges. now rewrite E.
Qed.

Lemma packed_u32 c u : civil_ok c -> datetime_to_u32 c = Some u -> 0 <= u < 4294967296.
Proof.
  intros H E. rewrite packed in E by exact H. injection E as E.
  destruct H as (Hy & Hm & Hd & Hh & Hmi & Hs). lia.
Qed.

Lemma date_bytes_inj ts ts' :
  1995 <= c_year (civil_of_ts ts) <= 2058 -> 1995 <= c_year (civil_of_ts ts') <= 2058 ->
  forall w, wrun 0 (write_date ts) = Ok w -> wrun 0 (write_date ts') = Ok w -> ts = ts'.
Proof.
  intros H H' w. apply civil_ranges in H, H'.
  intros E E'. apply civil_inj, packed_inj; [exact H|exact H'|].
  unfold write_date in E, E'. revert E E'.
  generalize (packed_u32 _ (date_word ts) H). generalize (packed_u32 _ (date_word ts') H').
  unfold date_word.
  destruct (datetime_to_u32 (civil_of_ts ts)) as [u|]; [|discriminate].
  destruct (datetime_to_u32 (civil_of_ts ts')) as [u'|]; [|discriminate].
  intros U' U E E'. specialize (U eq_refl). specialize (U' eq_refl). f_equal.
  assert (B : be 4 u = be 4 u').
  { unfold wrun, write_u32, write_int, put, w_app, w_set_p, w_new in E, E'. cbn [wp app] in E, E'.
    congruence. }
  rewrite <- (de_be_u 4 u), <- (de_be_u 4 u') by (red; change (256 ^ Z.of_nat 4) with 4294967296; lia).
  now rewrite B.
Qed.
