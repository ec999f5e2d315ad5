(** Readers only move forward, and nested objects cost bytes: the recursion of
    [read_object_any_into] is bounded by the length of the buffer. *)
From Verif Require Export Derive.

(** What is left to read. *)
Definition left_of (r : rbuf) : Z := zlen (rp r) - rc r.

(** The outcome of a reader that neither runs out of steps nor moves backwards. *)
Definition onward {A} (r : rbuf) (o : res (A * rbuf)) : Prop :=
  match o with
  | Ok (_, r') => rp r' = rp r /\ rc r <= rc r'
  | OutOfFuel => False
  | _ => True
  end.

(** With fewer than [N] bytes left, two readers do the same and move forward. *)
Definition same {A} (N : Z) (m1 m2 : R A) : Prop :=
  forall r, left_of r < N -> m1 r = m2 r /\ onward r (m1 r).

Lemma same_bind {A B} N (m1 m2 : R A) (k1 k2 : A -> R B) :
  same N m1 m2 -> (forall a, same N (k1 a) (k2 a)) -> same N (bind m1 k1) (bind m2 k2).
Proof.
  intros H K r Hr. destruct (H r Hr) as [E O]. unfold bind. rewrite <- E.
  destruct (m1 r) as [[a r']| | | |]; cbn [onward] in *; auto.
  destruct O as [O1 O2]. destruct (K a r') as [E' O'].
  { unfold left_of in *. rewrite O1. lia. }
  split; [exact E'|]. destruct (k1 a r') as [[b r'']| | | |]; cbn [onward] in *; auto.
  destruct O' as [O3 O4]. split; [congruence|lia].
Qed.

Lemma same_ret {A} N (a : A) : same N (ret a) (ret a).
Proof. intros r _. split; [reflexivity|]. cbn. split; [reflexivity|lia]. Qed.
Lemma same_fail {A} N e : same N (@fail rbuf A e) (fail e).
Proof. intros r _. split; [reflexivity|exact I]. Qed.
Lemma same_panic {A} N : same N (@panic rbuf A) panic.
Proof. intros r _. split; [reflexivity|exact I]. Qed.
Lemma same_extract N n : same N (extract n) (extract n).
Proof.
  intros r _. split; [reflexivity|]. unfold extract.
  destruct ((0 <=? rc r) && (0 <=? n) && (rc r + n <=? zlen (rp r))) eqn:E; cbn; [|exact I].
  split; [reflexivity|]. lia.
Qed.
Lemma same_until N n : same N (extract_until n) (extract_until n).
Proof.
  intros r _. split; [reflexivity|]. unfold extract_until. cbv zeta.
  destruct (_ && _) eqn:E; cbn; [|exact I]. split; [reflexivity|].
  match goal with |- context [zlen ?x] => pose proof (zlen_nonneg x) end. lia.
Qed.
Lemma same_gets {A} N (f : rbuf -> A) : same N (gets f) (gets f).
Proof. intros r _. split; [reflexivity|]. cbn. split; [reflexivity|lia]. Qed.
Lemma same_refs N (f : rbuf -> list (Z * bytes)) :
  same N (modify (fun r => r_set_refs r (f r))) (modify (fun r => r_set_refs r (f r))).
Proof. intros r _. split; [reflexivity|]. cbn. split; [reflexivity|lia]. Qed.

Lemma same_repeat {A} N (m1 m2 : R A) n : same N m1 m2 -> same N (repeatM n m1) (repeatM n m2).
Proof.
  intros H. induction n as [|n IH]; cbn [repeatM]; [apply same_ret|].
  apply same_bind; [exact H|]. intros a. apply same_bind; [exact IH|]. intros l. apply same_ret.
Qed.
Lemma same_mapM {A B} N (f : A -> R B) l : (forall a, same N (f a) (f a)) -> same N (mapM f l) (mapM f l).
Proof.
  intros H. induction l as [|x l IH]; cbn [mapM]; [apply same_ret|].
  apply same_bind; [apply H|]. intros a. apply same_bind; [exact IH|]. intros q. apply same_ret.
Qed.

Lemma same_uint N n : same N (read_uint n) (read_uint n).
Proof. unfold read_uint. apply same_bind; [apply same_extract|]. intros. apply same_ret. Qed.
Lemma same_sint N n : same N (read_sint n) (read_sint n).
Proof. unfold read_sint. apply same_bind; [apply same_extract|]. intros. apply same_ret. Qed.

Lemma extract_inv n r x r' : extract n r = Ok (x, r') -> r' = r_set_c r (rc r + n) /\ 0 <= n /\ 0 <= rc r /\ rc r + n <= zlen (rp r).
Proof.
  unfold extract. destruct (_ && _) eqn:E; [|discriminate]. intros H. injection H as _ H. split; [congruence|]. lia.
Qed.
(** A successful read needs and takes its bytes. *)
Lemma read_uint_inv n r x r' : read_uint n r = Ok (x, r') ->
  r' = r_set_c r (rc r + Z.of_nat n) /\ 0 <= rc r /\ rc r + Z.of_nat n <= zlen (rp r).
Proof.
  unfold read_uint. intros H. apply bind_inv in H as (b & s & H1 & H2). apply extract_inv in H1 as (-> & ? & ? & ?).
  unfold ret in H2. injection H2 as _ H2. subst. auto.
Qed.

Ltac same1 :=
  lazymatch goal with
  | |- same _ (bind _ _) (bind _ _) => apply same_bind; [|intro]
  | |- same _ (ret _) (ret _) => apply same_ret
  | |- same _ panic panic => apply same_panic
  | |- same _ (fail _) (fail _) => apply same_fail
  | |- same _ (extract _) (extract _) => apply same_extract
  | |- same _ (read_array_u8 _) _ => apply same_extract
  | |- same _ (gets _) (gets _) => apply same_gets
  | |- same _ (repeatM _ _) (repeatM _ _) => apply same_repeat
  | |- same _ (mapM _ _) (mapM _ _) => apply same_mapM; intro
  | |- same _ (read_array_i64 _) _ => unfold read_array_i64
  | |- same _ (read_uint _) _ => apply same_uint
  | |- same _ (read_sint _) _ => apply same_sint
  | |- same _ read_u8 _ => apply same_uint
  | |- same _ read_u16 _ => apply same_uint
  | |- same _ read_u32 _ => apply same_uint
  | |- same _ read_u64 _ => apply same_uint
  | |- same _ read_f32 _ => apply same_uint
  | |- same _ read_f64 _ => apply same_uint
  | |- same _ read_date _ => apply same_uint
  | |- same _ read_i8 _ => apply same_sint
  | |- same _ read_i16 _ => apply same_sint
  | |- same _ read_i32 _ => apply same_sint
  | |- same _ read_i64 _ => apply same_sint
  | |- same _ read_bool _ => unfold read_bool
  | |- same _ (ensure_max _ _) _ => unfold ensure_max
  | |- same _ (ensure_min _ _) _ => unfold ensure_min
  | |- same _ (if ?b then _ else _) (if ?b then _ else _) => destruct b
  | |- same _ (match ?x with _ => _ end) (match ?x with _ => _ end) => destruct x
  end.
Ltac same_go := cbv zeta; repeat (same1; cbv zeta); auto.

Lemma same_string N : same N read_string read_string.
Proof. unfold read_string. same_go. Qed.
Lemma same_cstring N n : same N (read_cstring n) (read_cstring n).
Proof. unfold read_cstring. apply same_bind; [apply same_until|]. intros. apply same_ret. Qed.

Lemma onward_read {A} (k : Z -> A) r n :
  onward r ((v <- read_uint n ;; ret (k v)) r).
Proof.
  apply (same_bind (left_of r + 1) _ _ _ _ (same_uint _ n) (fun a => same_ret _ _) r). lia.
Qed.
Lemma onward_from {A} r r1 (o : res (A * rbuf)) : rp r1 = rp r -> rc r <= rc r1 -> onward r1 o -> onward r o.
Proof.
  intros E L. destruct o as [[a r2]| | | |]; cbn; auto. intros [H1 H2]. split; [congruence|lia].
Qed.
Lemma same_header N : same N read_header read_header.
Proof.
  intros r _. split; [reflexivity|]. unfold read_header, bind at 1, gets.
  unfold bind at 1. destruct (read_u32 r) as [[b r1]| | | |] eqn:E1; [|exact I|exact I|exact I|].
  2: { exfalso. pose proof (same_uint (left_of r + 1) 4 r ltac:(lia)) as [_ H]. unfold read_u32 in E1. rewrite E1 in H. exact H. }
  apply read_uint_inv in E1 as (-> & H0 & H1). change (Z.of_nat 4) with 4 in *.
  destruct (negb _).
  - eapply onward_from; [| |apply (onward_read (fun v => mkH (to_i16 v) (r_pos r) (Z.ldiff b kByteCountMask)) _ 2)];
      cbn; [reflexivity|lia].
  - unfold bind at 1. unfold set_pos. cbn [roff r_set_c rp rc].
    replace (r_pos r - roff r) with (rc r) by (unfold r_pos; lia).
    destruct (Z.leb_spec 0 (rc r)); [|exact I].
    eapply onward_from; [| |apply (onward_read (fun v => mkH (to_i16 v) (r_pos r) 0) _ 2)]; cbn; [reflexivity|lia].
Qed.

Ltac same2 :=
  first
  [ same1
  | lazymatch goal with
    | |- same _ read_string _ => apply same_string
    | |- same _ (read_cstring _) _ => apply same_cstring
    | |- same _ read_header _ => apply same_header
    end ].
Ltac same_run := cbv zeta; repeat (same2; cbv zeta); auto.

Lemma same_obj N : same N obj_unmarshal obj_unmarshal.
Proof. unfold obj_unmarshal, skip_version. same_run. Qed.
Lemma same_named N : same N named_unmarshal named_unmarshal.
Proof. unfold named_unmarshal. same_run. apply same_obj. Qed.
Lemma same_attfill N : same N attfill_unmarshal attfill_unmarshal.
Proof. unfold attfill_unmarshal. same_run. Qed.
Lemma same_attline N : same N attline_unmarshal attline_unmarshal.
Proof. unfold attline_unmarshal. same_run. Qed.
Lemma same_attmarker N : same N attmarker_unmarshal attmarker_unmarshal.
Proof. unfold attmarker_unmarshal. same_run. Qed.
Lemma same_iobits N : same N iobits_unmarshal iobits_unmarshal.
Proof. unfold iobits_unmarshal. same_run. Qed.
Lemma same_key N : same N key_unmarshal key_unmarshal.
Proof. unfold key_unmarshal. same_run. Qed.
Lemma same_objarray {O} N (ro1 ro2 : R (option O)) : same N ro1 ro2 ->
  same N (objarray_unmarshal ro1) (objarray_unmarshal ro2).
Proof. intros H. unfold objarray_unmarshal. same_run. apply same_obj. Qed.
Lemma same_list {O} N (ro1 ro2 : R (option O)) : same N ro1 ro2 -> same N (list_unmarshal ro1) (list_unmarshal ro2).
Proof. intros H. unfold list_unmarshal. same_run. apply same_obj. Qed.
Lemma same_basket N : same N basket_unmarshal basket_unmarshal.
Proof. unfold basket_unmarshal. same_run. apply same_key. Qed.
Lemma same_elem N : same N elem_unmarshal elem_unmarshal.
Proof. unfold elem_unmarshal. same_run. apply same_named. Qed.
Lemma same_stl N : same N stl_unmarshal stl_unmarshal.
Proof. unfold stl_unmarshal. same_run. apply same_elem. Qed.
Lemma same_simple N mx k : (forall e, same N (k e) (k e)) -> same N (simple_unmarshal mx k) (simple_unmarshal mx k).
Proof. intros H. unfold simple_unmarshal. same_run. apply same_elem. Qed.
Lemma same_streamer N class m : streamer_unmarshal class = Some m -> same N m m.
Proof.
  unfold streamer_unmarshal.
  repeat match goal with |- context [if ?b then _ else _] => destruct b;
    [intros H; assert (E : forall x y : R streamer, Some x = Some y -> x = y) by congruence; apply E in H; subst m|] end;
  try discriminate; try (apply same_simple; intro); same_run; try apply same_elem; try apply same_stl.
  all: try (unfold basic_fix; same_run).
Qed.

Lemma same_tleaf N ro1 ro2 : same N ro1 ro2 -> same N (tleaf_unmarshal ro1) (tleaf_unmarshal ro2).
Proof. intros H. unfold tleaf_unmarshal. same_run. apply same_named. Qed.
Lemma same_bound N k : same N (read_bound k) (read_bound k).
Proof. unfold read_bound. same_run. Qed.
Lemma same_leaf N ro1 ro2 k : same N ro1 ro2 -> same N (leaf_unmarshal ro1 k) (leaf_unmarshal ro2 k).
Proof.
  intros H. unfold leaf_unmarshal.
  destruct k; same_run; try (now apply same_tleaf); apply same_bound.
Qed.
Lemma same_read_vec N n m : same N m m -> same N (read_vec n m) (read_vec n m).
Proof. intros H. unfold read_vec. same_run. Qed.
Lemma same_slice_to N v n : same N (slice_to v n) (slice_to v n).
Proof. unfold slice_to. same_run. Qed.
Lemma same_f64_i64 N : same N read_f64_i64 read_f64_i64.
Proof. unfold read_f64_i64. same_run. Qed.

Ltac same3 :=
  first
  [ same2
  | lazymatch goal with
    | |- same _ named_unmarshal _ => apply same_named
    | |- same _ obj_unmarshal _ => apply same_obj
    | |- same _ attfill_unmarshal _ => apply same_attfill
    | |- same _ attline_unmarshal _ => apply same_attline
    | |- same _ attmarker_unmarshal _ => apply same_attmarker
    | |- same _ iobits_unmarshal _ => apply same_iobits
    | |- same _ read_f64_i64 _ => apply same_f64_i64
    | |- same _ basket_unmarshal _ => apply same_basket
    | |- same _ (read_vec _ _) _ => apply same_read_vec
    | |- same _ (slice_to _ _) _ => apply same_slice_to
    | |- same _ (objarray_unmarshal _) _ => apply same_objarray
    | |- same _ (list_unmarshal _) _ => apply same_list
    | |- same _ (leaf_unmarshal _ _) _ => apply same_leaf
    | |- same _ (as_branch _) _ => unfold as_branch
    | |- same _ (as_leaf _) _ => unfold as_leaf
    | |- same _ (as_basket _) _ => unfold as_basket
    | |- same _ (as_streamer _) _ => unfold as_streamer
    end ].
Ltac same_all := cbv zeta; repeat (same3; cbv zeta); auto.

Lemma same_tbranch N ro1 ro2 : same N ro1 ro2 -> same N (tbranch_unmarshal ro1) (tbranch_unmarshal ro2).
Proof. intros H. unfold tbranch_unmarshal. same_all. Qed.
Lemma same_tbranchelement N ro1 ro2 : same N ro1 ro2 ->
  same N (tbranchelement_unmarshal ro1) (tbranchelement_unmarshal ro2).
Proof. intros H. unfold tbranchelement_unmarshal. same_all. now apply same_tbranch. Qed.
Lemma same_tree N ro1 ro2 : same N ro1 ro2 -> same N (tree_unmarshal ro1) (tree_unmarshal ro2).
Proof. intros H. unfold tree_unmarshal. same_all. Qed.
Lemma same_sinfo N ro1 ro2 : same N ro1 ro2 -> same N (sinfo_unmarshal ro1) (sinfo_unmarshal ro2).
Proof. intros H. unfold sinfo_unmarshal. same_all. Qed.
Lemma same_need N ro1 ro2 : same N ro1 ro2 -> same N (need ro1) (need ro2).
Proof. intros H. unfold need. same_all. Qed.
Lemma same_pairs N ro1 ro2 n acc : same N ro1 ro2 -> same N (tmap_pairs ro1 n acc) (tmap_pairs ro2 n acc).
Proof.
  intros H. revert acc; induction n as [|n IH]; intros acc; cbn [tmap_pairs]; [apply same_ret|].
  apply same_bind; [now apply same_need|]. intros k. apply same_bind; [now apply same_need|]. intros v.
  destruct k; try apply same_panic. apply IH.
Qed.
Lemma same_tmap N ro1 ro2 : same N ro1 ro2 -> same N (tmap_unmarshal ro1) (tmap_unmarshal ro2).
Proof. intros H. unfold tmap_unmarshal. same_all. now apply same_pairs. Qed.

Ltac same_disp :=
  unfold objstring_unmarshal;
  repeat first
    [ same3
    | lazymatch goal with
      | |- same _ (tmap_unmarshal _) _ => apply same_tmap
      | |- same _ (sinfo_unmarshal _) _ => apply same_sinfo
      | |- same _ (tree_unmarshal _) _ => apply same_tree
      | |- same _ (tbranch_unmarshal _) _ => apply same_tbranch
      | |- same _ (tbranchelement_unmarshal _) _ => apply same_tbranchelement
      end ]; auto.
Lemma same_dispatch N ro1 ro2 class : same N ro1 ro2 ->
  match dispatch ro1 class, dispatch ro2 class with
  | Some m1, Some m2 => same N m1 m2
  | None, None => True
  | _, _ => False
  end.
Proof.
  intros H. unfold dispatch.
  repeat match goal with |- context [beqb class ?x] => destruct (beqb class x); [solve [same_disp]|] end.
  destruct (find _ _) as [k|]; [same_all|].
  destruct (streamer_unmarshal class) as [m|] eqn:E; [|exact I].
  apply same_bind; [now apply (same_streamer N class)|]. intros. apply same_ret.
Qed.

(** ** The recursion *)
Lemma same_bind_u32 {A} N (k1 k2 : Z -> R A) :
  (5 <= N -> forall b, same (N - 4) (k1 b) (k2 b)) -> same N (bind read_u32 k1) (bind read_u32 k2).
Proof.
  intros H r Hr. unfold bind. pose proof (same_uint N 4 r Hr) as [_ K]. fold read_u32 in K.
  destruct (read_u32 r) as [[b r1]| | | |] eqn:E1; cbn [onward] in K; try (split; [reflexivity|exact I]); [|contradiction].
  apply read_uint_inv in E1 as (-> & H0 & H1). change (Z.of_nat 4) with 4 in *.
  unfold left_of in Hr. destruct (H ltac:(lia) b (r_set_c r (rc r + 4))) as [K1 K2].
  { unfold left_of; cbn; lia. }
  split; [exact K1|]. eapply onward_from; [| |exact K2]; cbn; [reflexivity|lia].
Qed.
Lemma same_roa N (um1 um2 : bytes -> R robj) :
  (5 <= N -> forall c, same (N - 4) (um1 c) (um2 c)) ->
  same N (read_object_any known um1) (read_object_any known um2).
Proof.
  intros H. unfold read_object_any. apply same_bind_u32. intros HN b. specialize (H HN).
  apply same_bind; [same_all|]. intros [[vers start] tag].
  destruct (Z.land tag kClassMask =? 0); [same_all|].
  destruct (tag =? kNewClassTag); same_all. apply same_refs.
Qed.

Lemma same_um f : forall g N c, 0 < N -> N <= Z.of_nat f -> N <= Z.of_nat g -> same N (um f c) (um g c).
Proof.
  induction f as [|f IH]; intros g N c HN Hf Hg; [lia|].
  destruct g as [|g]; [lia|]. cbn [um].
  assert (K : same N (read_object_any known (um f)) (read_object_any known (um g))).
  { apply same_roa. intros H5 c'. apply IH; lia. }
  apply (same_dispatch N _ _ c) in K.
  destruct (dispatch (read_object_any known (um f)) c), (dispatch (read_object_any known (um g)) c); try contradiction; auto.
  apply same_fail.
Qed.

(** The fuel of the model is enough, and more changes nothing. *)
Lemma um_enough off c buf n : (length buf < n)%nat ->
  rrun off (um n c) buf = rrun off (um (S (length buf)) c) buf.
Proof.
  intros H. unfold rrun.
  destruct (same_um n (S (length buf)) (Z.of_nat (S (length buf))) c ltac:(lia) ltac:(lia) ltac:(lia) (r_new buf off)) as [E _].
  { unfold left_of. cbn [rp rc r_new]. rewrite zlen_def. lia. }
  now rewrite E.
Qed.

(** ** Results that end *)
Definition ends {A} (r : res A) : Prop := r <> OutOfFuel.

Lemma ends_rrun {A} off (m : R A) buf N : same N m m -> zlen buf < N -> ends (rrun off m buf).
Proof.
  intros H L. destruct (H (r_new buf off)) as [_ O]; [unfold left_of; cbn; lia|].
  unfold rrun, ends. destruct (m (r_new buf off)) as [[a r]| | | |]; cbn in *; try discriminate. contradiction.
Qed.
Lemma ends_rbind {A B} (m : res A) (k : A -> res B) : ends m -> (forall a, m = Ok a -> ends (k a)) -> ends (rbind m k).
Proof. unfold ends. intros H K. destruct m; cbn; try discriminate; auto. Qed.

Lemma ends_um off c buf : ends (rrun off (um (S (length buf)) c) buf).
Proof.
  apply (ends_rrun _ _ _ (Z.of_nat (S (length buf)))); [apply same_um; lia|]. rewrite zlen_def. lia.
Qed.
