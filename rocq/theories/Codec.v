(** Writer/reader correspondence: proof infrastructure only, nothing here models code. *)
From Verif Require Export WBuf.

(** [writes m w]: from any state, [m] succeeds and appends exactly [w]. *)
Definition writes {X} (m : W X) (w : bytes) : Prop :=
  forall s, exists x, m s = Ok (x, w_app s w).

(** [reads_sk sk m w v]: wherever [w] occurs in a buffer, reading there yields [v]
    and advances past exactly [w]. *)
Definition reads_sk {V} (sk : option Z) (m : R V) (w : bytes) (v : V) : Prop :=
  forall pre post off rr,
    m (mkR (pre ++ w ++ post) (zlen pre) off rr sk)
    = Ok (v, mkR (pre ++ w ++ post) (zlen pre + zlen w) off rr sk).

Definition reads {V} (m : R V) (w : bytes) (v : V) : Prop := forall sk, reads_sk sk m w v.

(** Pure round trip with length [n]. *)
Definition rt {X V} (n : Z) (wm : W X) (rm : R V) (v : V) : Prop :=
  exists w, zlen w = n /\ writes wm w /\ reads rm w v.

Lemma w_app_app s a b : w_app (w_app s a) b = w_app s (a ++ b).
Proof. unfold w_app, w_set_p; cbn. now rewrite app_assoc. Qed.
Lemma w_app_nil s : w_app s [] = s.
Proof. unfold w_app, w_set_p; cbn. rewrite app_nil_r. now destruct s. Qed.

Lemma writes_ret {X} (x : X) : writes (ret x) [].
Proof. intros s; exists x. now rewrite w_app_nil. Qed.
Lemma writes_put w : writes (put w) w.
Proof. intros s; exists tt. reflexivity. Qed.
Lemma writes_bind {X Y} (m : W X) (k : X -> W Y) a b :
  writes m a -> (forall x, writes (k x) b) -> writes (bind m k) (a ++ b).
Proof.
  intros Hm Hk s. destruct (Hm s) as [x Hx]. destruct (Hk x (w_app s a)) as [y Hy].
  exists y. rewrite (bind_Ok _ _ _ _ _ Hx), Hy. now rewrite w_app_app.
Qed.
Lemma writes_det {X} (m : W X) a b : writes m a -> writes m b -> a = b.
Proof.
  intros Ha Hb. destruct (Ha (w_new 0)) as [x Hx]. destruct (Hb (w_new 0)) as [y Hy].
  rewrite Hx in Hy. injection Hy as _ H. exact H.
Qed.
Lemma writes_iter {A} (f : A -> W unit) (g : A -> bytes) l :
  (forall a, In a l -> writes (f a) (g a)) -> writes (iterM f l) (flat_map g l).
Proof.
  induction l as [|a l IH]; cbn; intros H.
  - apply writes_ret.
  - apply writes_bind; [apply H; auto|]. intros _. apply IH. intros; apply H; auto.
Qed.

Lemma reads_ret {V} (v : V) sk : reads_sk sk (ret v) [] v.
Proof. intros pre post off rr. unfold ret. cbn [app]. rewrite (@zlen_nil Z), Z.add_0_r. reflexivity. Qed.

Lemma reads_bind {V U} (m : R V) (k : V -> R U) a b v u sk :
  reads_sk sk m a v -> reads_sk sk (k v) b u -> reads_sk sk (bind m k) (a ++ b) u.
Proof.
  intros Hm Hk pre post off rr.
  specialize (Hm pre (b ++ post) off rr).
  specialize (Hk (pre ++ a) post off rr).
  rewrite <- app_assoc. rewrite (bind_Ok _ _ _ _ _ Hm).
  rewrite zlen_app in Hk. rewrite <- !app_assoc in Hk. rewrite Hk.
  rewrite zlen_app. rewrite Z.add_assoc. reflexivity.
Qed.

Lemma reads_extract w sk : reads_sk sk (extract (zlen w)) w w.
Proof.
  intros pre post off rr. unfold extract; cbn [rp rc].
  pose proof (zlen_nonneg pre). pose proof (zlen_nonneg w). pose proof (zlen_nonneg post).
  replace ((0 <=? zlen pre) && (0 <=? zlen w) && (zlen pre + zlen w <=? zlen (pre ++ w ++ post))) with true.
  - rewrite zsub_mid. reflexivity.
  - rewrite !zlen_app. symmetry. lia.
Qed.

Lemma reads_extract_n n w sk : zlen w = n -> reads_sk sk (extract n) w w.
Proof. intros <-. apply reads_extract. Qed.

Lemma reads_uint n z sk : in_u n z -> reads_sk sk (read_uint n) (be n z) z.
Proof.
  intros H. unfold read_uint. rewrite <- (app_nil_r (be n z)).
  eapply reads_bind; [apply reads_extract_n, zlen_be|].
  rewrite de_be_u by exact H. apply reads_ret.
Qed.
Lemma reads_sint n z sk : (0 < n)%nat -> in_s n z -> reads_sk sk (read_sint n) (be n z) z.
Proof.
  intros Hn H. unfold read_sint. rewrite <- (app_nil_r (be n z)).
  eapply reads_bind; [apply reads_extract_n, zlen_be|].
  rewrite sgn_de_be by auto. apply reads_ret.
Qed.

Lemma writes_int n z : writes (write_int n z) (be n z).
Proof. apply writes_put. Qed.

(** ** Round trips of primitives *)
Lemma rt_intro {X V} n (wm : W X) (rm : R V) v w :
  zlen w = n -> writes wm w -> reads rm w v -> rt n wm rm v.
Proof. intros; exists w; auto. Qed.

Lemma rt_uint n z : in_u n z -> rt (Z.of_nat n) (write_int n z) (read_uint n) z.
Proof.
  intros H. eapply rt_intro; [apply (zlen_be n z)|apply writes_int|].
  intros sk. now apply reads_uint.
Qed.
Lemma rt_sint n z : (0 < n)%nat -> in_s n z -> rt (Z.of_nat n) (write_int n z) (read_sint n) z.
Proof.
  intros Hn H. eapply rt_intro; [apply (zlen_be n z)|apply writes_int|].
  intros sk. now apply reads_sint.
Qed.

Lemma rt_u8 z : is_u8 z -> rt 1 (write_u8 z) read_u8 z. Proof. intros; now apply (rt_uint 1). Qed.
Lemma rt_u16 z : is_u16 z -> rt 2 (write_u16 z) read_u16 z. Proof. intros; now apply (rt_uint 2). Qed.
Lemma rt_u32 z : is_u32 z -> rt 4 (write_u32 z) read_u32 z. Proof. intros; now apply (rt_uint 4). Qed.
Lemma rt_u64 z : is_u64 z -> rt 8 (write_u64 z) read_u64 z. Proof. intros; now apply (rt_uint 8). Qed.
Lemma rt_i8 z : is_i8 z -> rt 1 (write_i8 z) read_i8 z. Proof. intros; apply (rt_sint 1); [lia|exact H]. Qed.
Lemma rt_i16 z : is_i16 z -> rt 2 (write_i16 z) read_i16 z. Proof. intros; apply (rt_sint 2); [lia|exact H]. Qed.
Lemma rt_i32 z : is_i32 z -> rt 4 (write_i32 z) read_i32 z. Proof. intros; apply (rt_sint 4); [lia|exact H]. Qed.
Lemma rt_i64 z : is_i64 z -> rt 8 (write_i64 z) read_i64 z. Proof. intros; apply (rt_sint 8); [lia|exact H]. Qed.
Lemma rt_f32 z : is_u32 z -> rt 4 (write_f32 z) read_f32 z. Proof. intros; now apply (rt_uint 4). Qed.
Lemma rt_f64 z : is_u64 z -> rt 8 (write_f64 z) read_f64 z. Proof. intros; now apply (rt_uint 8). Qed.

Lemma rt_ret {X V} (x : X) (v : V) : rt 0 (ret x) (ret v) v.
Proof.
  eapply rt_intro; [apply (@zlen_nil Z)|apply writes_ret|]. intros sk; apply reads_ret.
Qed.

Lemma rt_bind {X Y V U} n1 n2 n (wm : W X) (wk : X -> W Y) (rm : R V) (rk : V -> R U) v u :
  rt n1 wm rm v -> (exists w, zlen w = n2 /\ (forall x, writes (wk x) w) /\ reads (rk v) w u) ->
  n = n1 + n2 ->
  rt n (bind wm wk) (bind rm rk) u.
Proof.
  intros (w1 & L1 & W1 & R1) (w2 & L2 & W2 & R2) ->.
  exists (w1 ++ w2). split; [rewrite zlen_app; lia|]. split.
  - now apply writes_bind.
  - intros sk. eapply reads_bind; [apply R1|apply R2].
Qed.

Lemma rt_seq {X Y V U} n1 n2 n (wm : W X) (wk : W Y) (rm : R V) (rk : V -> R U) v u :
  rt n1 wm rm v -> rt n2 wk (rk v) u -> n = n1 + n2 -> rt n (wm ;;; wk) (bind rm rk) u.
Proof.
  intros H1 (w & L & Hw & Hr) ->. eapply rt_bind; [exact H1| |reflexivity].
  exists w. repeat split; auto.
Qed.

Lemma rt_len {X V} n m (wm : W X) (rm : R V) v : rt n wm rm v -> n = m -> rt m wm rm v.
Proof. now intros H <-. Qed.

Lemma rt_val {X V} n (wm : W X) (rm : R V) v v' : rt n wm rm v -> v = v' -> rt n wm rm v'.
Proof. now intros H <-. Qed.

(** Reader-side pointwise equality. *)
Lemma rt_rext {X V} n (wm : W X) (rm rm' : R V) v :
  rt n wm rm v -> (forall r, rm' r = rm r) -> rt n wm rm' v.
Proof.
  intros (w & L & Hw & Hr) E. exists w. repeat split; auto.
  intros sk pre post off rr. rewrite E. apply Hr.
Qed.
Lemma rt_wext {X V} n (wm wm' : W X) (rm : R V) v :
  rt n wm rm v -> (forall s, wm' s = wm s) -> rt n wm' rm v.
Proof.
  intros (w & L & Hw & Hr) E. exists w. repeat split; auto.
  intros s. rewrite E. apply Hw.
Qed.

Lemma rt_assoc {X Y T V} n (a : W X) (b : W Y) (c : W T) (rm : R V) v :
  rt n (a ;;; (b ;;; c)) rm v -> rt n ((a ;;; b) ;;; c) rm v.
Proof. intros H. eapply rt_wext; [exact H|]. intros s. apply bind_assoc. Qed.

(** ** Strings *)
Definition str_bytes (s : bytes) : bytes :=
  if zlen s <? 255 then zlen s :: s else 255 :: be 4 (zlen s) ++ s.

Lemma be_1 z : is_u8 z -> be 1 z = [z].
Proof.
  unfold is_u8. intros H. cbn [be]. change (256 ^ Z.of_nat 0) with 1. rewrite Z.div_1_r.
  now rewrite Z.mod_small.
Qed.

Lemma writes_string s : is_i32 (zlen s) -> writes (write_string s) (str_bytes s).
Proof.
  intros H. unfold write_string, str_bytes. rewrite to_i32_id by exact H.
  pose proof (zlen_nonneg s) as Hn.
  destruct (Z.ltb_spec (zlen s) 255) as [L|L].
  - change (zlen s :: s) with ([zlen s] ++ s). apply writes_bind.
    + replace [zlen s] with (be 1 (to_u8 (zlen s))); [apply writes_int|].
      unfold to_u8. rewrite wrap_u_id by (red; change (256 ^ Z.of_nat 1) with 256; lia).
      apply be_1. red; lia.
    + intros _. destruct (Z.ltb_spec 0 (zlen s)); [apply writes_put|].
      assert (s = []) as -> by (apply zlen_0_nil; lia). apply writes_ret.
  - change (255 :: be 4 (zlen s) ++ s) with ([255] ++ be 4 (zlen s) ++ s).
    apply writes_bind; [apply (writes_int 1 255)|]. intros _.
    apply writes_bind; [|intros _; apply writes_put].
    rewrite to_u32_id by (red in H |- *; lia). apply writes_int.
Qed.

Lemma str_bytes_len s : zlen (str_bytes s) = (if zlen s <? 255 then 1 + zlen s else 5 + zlen s).
Proof.
  unfold str_bytes. destruct (_ <? _); zlen_simpl; rewrite ?zlen_be; lia.
Qed.

Lemma reads_string s sk : zlen s < 4294967296 -> utf8_valid s = true ->
  reads_sk sk read_string (str_bytes s) s.
Proof.
  intros H U. pose proof (zlen_nonneg s) as Hn. unfold read_string, str_bytes.
  destruct (Z.ltb_spec (zlen s) 255) as [L|L].
  - change (zlen s :: s) with ([zlen s] ++ s).
    eapply reads_bind.
    { rewrite <- (be_1 (zlen s)) by (red; lia). apply reads_uint. red.
      change (256 ^ Z.of_nat 1) with 256. lia. }
    destruct (Z.eqb_spec (zlen s) 255); [lia|].
    change s with ([] ++ s) at 2.
    eapply reads_bind; [apply reads_ret|].
    destruct (Z.eqb_spec (zlen s) 0) as [E|E].
    + assert (s = []) as -> by (apply zlen_0_nil; lia). apply reads_ret.
    + rewrite <- (app_nil_r s) at 2.
      eapply reads_bind; [apply reads_extract|]. rewrite U. apply reads_ret.
  - change (255 :: be 4 (zlen s) ++ s) with (be 1 255 ++ be 4 (zlen s) ++ s).
    eapply reads_bind; [apply reads_uint; red; change (256 ^ Z.of_nat 1) with 256; lia|].
    cbn [Z.eqb Pos.eqb].
    eapply reads_bind; [apply reads_uint; red; change (256 ^ Z.of_nat 4) with 4294967296; lia|].
    destruct (Z.eqb_spec (zlen s) 0) as [E|E]; [lia|].
    rewrite <- (app_nil_r s) at 2.
    eapply reads_bind; [apply reads_extract|]. rewrite U. apply reads_ret.
Qed.

Definition str_ok (s : bytes) : Prop := zlen s < 2147483648 /\ utf8_valid s = true.

Lemma tstring_sizeof_len s : zlen s < 2147483648 ->
  tstring_sizeof s = zlen (str_bytes s).
Proof.
  intros H. pose proof (zlen_nonneg s). unfold tstring_sizeof.
  rewrite to_i32_id by (red; lia). rewrite str_bytes_len.
  destruct (Z.ltb_spec 254 (zlen s)), (Z.ltb_spec (zlen s) 255); lia.
Qed.

Lemma rt_string s : str_ok s -> rt (tstring_sizeof s) (write_string s) read_string s.
Proof.
  intros [H U]. pose proof (zlen_nonneg s).
  eapply rt_intro; [symmetry; now apply tstring_sizeof_len|apply writes_string; red; lia|].
  intros sk. apply reads_string; [lia|auto].
Qed.

Lemma rt_bytes w : rt (zlen w) (put w) (extract (zlen w)) w.
Proof.
  eapply rt_intro; [reflexivity|apply writes_put|]. intros sk; apply reads_extract.
Qed.

Lemma rt_bool b : rt 1 (write_bool b) read_bool b.
Proof.
  eapply rt_intro with (w := be 1 (if b then 1 else 0)); [apply zlen_be|apply writes_int|].
  intros sk. unfold read_bool. rewrite <- (app_nil_r (be 1 _)).
  eapply reads_bind; [apply reads_sint; [lia|]; destruct b; red; vm_compute; split; congruence|].
  destruct b; apply reads_ret.
Qed.

(** Repetition *)
Lemma rt_repeat {A} (wf : A -> W unit) (rf : R A) (sz : Z) l :
  (forall a, In a l -> rt sz (wf a) rf a) ->
  rt (sz * zlen l) (iterM wf l) (repeatM (length l) rf) l.
Proof.
  induction l as [|a l IH]; intros H; cbn [iterM repeatM length].
  - eapply rt_len; [apply rt_ret|]. rewrite (@zlen_nil A). lia.
  - eapply rt_seq with (n2 := sz * zlen l); [apply H; now left| |rewrite zlen_cons; lia].
    destruct IH as (w & L & Hw & Hr); [intros; apply H; now right|].
    exists w. repeat split; auto. intros sk.
    rewrite <- (app_nil_r w). eapply reads_bind; [apply Hr|apply reads_ret].
Qed.

(** ** Header patching *)
Lemma patch_mid a x b y : zlen x = zlen y -> patch (a ++ x ++ b) (zlen a) y = a ++ y ++ b.
Proof.
  rewrite !zlen_def. intros H. unfold patch. rewrite Nat2Z.id.
  rewrite firstn_app, firstn_all, Nat.sub_diag. cbn [firstn]. rewrite app_nil_r.
  f_equal. f_equal.
  replace (length a + length y)%nat with (length (a ++ x)) by (rewrite app_length; lia).
  rewrite app_assoc, skipn_app, skipn_all, Nat.sub_diag. reflexivity.
Qed.

Definition with_header {X} (vers : Z) (body : W X) : W Z :=
  h <- write_header vers ;; body ;;; set_header h.

Lemma lor_mask_bit z : Z.land (Z.lor z kByteCountMask mod 2 ^ 32) kByteCountMask <> 0.
Proof.
  intros H. apply (f_equal (fun z => Z.testbit z 30)) in H.
  rewrite Z.land_spec, Z.mod_pow2_bits_low, Z.lor_spec, Z.bits_0 in H by lia.
  change (Z.testbit kByteCountMask 30) with true in H. rewrite orb_true_r in H. discriminate.
Qed.

Lemma reads_header vers cnt sk :
  is_i16 vers ->
  forall pre post off rr,
  exists len,
    read_header (mkR (pre ++ (be 4 (Z.lor cnt kByteCountMask) ++ be 2 vers) ++ post) (zlen pre) off rr sk)
    = Ok (mkH vers (zlen pre + off) len,
          mkR (pre ++ (be 4 (Z.lor cnt kByteCountMask) ++ be 2 vers) ++ post) (zlen pre + 6) off rr sk).
Proof.
  intros Hv pre post off rr. unfold read_header.
  set (b := be 4 _).
  pose (z := (Z.lor cnt kByteCountMask) mod 2 ^ 32).
  assert (Hz : in_u 4 z) by (red; change (256 ^ Z.of_nat 4) with (2 ^ 32); apply Z.mod_pos_bound; lia).
  assert (Eb : b = be 4 z) by (symmetry; apply (be_mod 4)).
  assert (HR : reads_sk sk read_u32 b z) by (rewrite Eb; now apply reads_uint).
  unfold gets at 1. unfold bind at 1. cbn [r_pos rc roff].
  specialize (HR pre (be 2 vers ++ post) off rr).
  rewrite <- app_assoc. rewrite (bind_Ok _ _ _ _ _ HR).
  destruct (Z.eqb_spec (Z.land z kByteCountMask) 0) as [E|E]; [exfalso; revert E; apply lor_mask_bit|].
  cbn [negb].
  assert (H2 : reads_sk sk read_u16 (be 2 vers) (vers mod 256 ^ Z.of_nat 2)).
  { rewrite <- be_mod. apply reads_uint. red. apply Z.mod_pos_bound. apply pow256_pos. }
  specialize (H2 (pre ++ b) post off rr). rewrite zlen_app in H2. rewrite <- app_assoc in H2.
  rewrite (bind_Ok _ _ _ _ _ H2).
  eexists. unfold ret, r_pos. cbn [rc roff]. do 3 f_equal.
  - f_equal. unfold to_i16, wrap_s, wrap_u. rewrite Z.mod_mod by (vm_compute; congruence).
    apply sgn_mod; [lia|exact Hv].
  - unfold b. rewrite !zlen_be. lia.
Qed.

Lemma writes_header {X} vers (body : W X) w s :
  (exists x, body (w_app s (be 4 0 ++ be 2 vers)) = Ok (x, w_app s ((be 4 0 ++ be 2 vers) ++ w))) ->
  exists z, with_header vers body s
   = Ok (z, w_app s (be 4 (Z.lor (zlen w + 2) kByteCountMask) ++ be 2 vers ++ w)).
Proof.
  intros [x Hx]. unfold with_header, write_header, gets.
  unfold bind at 1. unfold bind at 1. unfold write_u32, write_u16, write_int, put.
  unfold bind at 1. unfold bind at 1. unfold ret. rewrite w_app_app.
  rewrite (bind_Ok _ _ _ _ _ Hx). unfold set_header, gets, bind at 1, bind at 1.
  unfold write_in_place. cbn [woff w_app w_set_p wp].
  unfold wpos. cbn [woff w_app w_set_p wp].
  replace (zlen (wp s) + woff s - woff s) with (zlen (wp s)) by lia.
  rewrite !zlen_app, !zlen_be. pose proof (zlen_nonneg (wp s)). pose proof (zlen_nonneg w).
  replace (_ && _) with true by (symmetry; lia).
  eexists. unfold ret. do 2 f_equal. unfold w_app, w_set_p. cbn [woff wrefp wrefs wp]. f_equal.
  rewrite <- !app_assoc. rewrite patch_mid by now rewrite !zlen_be.
  do 4 f_equal. lia.
Qed.

(** ** Simulation: writers that use the object tables of the buffer *)

(** Every class already named in the stream is known to the reader under its tag,
    a position before [pos]. *)
Definition refs_ok (pos : Z) (ws : list (bytes * Z)) (rr : list (Z * bytes)) : Prop :=
  forall c v, alookup beqb c ws = Some v ->
    exists k, v = Z.lor k kClassMask /\ 0 < k < 2 ^ 31 /\ k <= pos
              /\ alookup Z.eqb k rr = Some c.

Lemma refs_ok_mono p q ws rr : refs_ok p ws rr -> p <= q -> refs_ok q ws rr.
Proof.
  intros H L c v E. destruct (H c v E) as (k & H1 & H2 & H3 & H4).
  exists k. repeat split; auto; lia.
Qed.

(** [A]: objects registered by the writer, none of them known before;
    [B]: objects that are known before. *)
Definition simg (P : wbuf -> Prop) (B A : list Z) {X V} (wm : W X) (rm : R V) (v : V) : Prop :=
  forall s, P s -> 0 <= woff s ->
    (forall a, In a A -> alookup Z.eqb a (wrefp s) = None) ->
    (forall b, In b B -> exists q, alookup Z.eqb b (wrefp s) = Some q /\ 2 <= q <= wpos s) ->
  exists x s' w,
    wm s = Ok (x, s') /\ wp s' = wp s ++ w /\ woff s' = woff s /\
    (forall a, In a A -> exists q, alookup Z.eqb a (wrefp s') = Some q /\ 2 <= q <= wpos s') /\
    (forall a, ~ In a A -> alookup Z.eqb a (wrefp s') = alookup Z.eqb a (wrefp s)) /\
    (wpos s' < 2 ^ 31 ->
     forall pre post off rr sk,
       zlen pre + off = wpos s -> refs_ok (wpos s) (wrefs s) rr ->
       exists rr',
         rm (mkR (pre ++ w ++ post) (zlen pre) off rr sk)
         = Ok (v, mkR (pre ++ w ++ post) (zlen pre + zlen w) off rr' sk)
         /\ refs_ok (wpos s') (wrefs s') rr').

Definition nonempty (s : wbuf) : Prop := wp s <> [].
Notation sim := (simg nonempty).
Notation sim0 := (simg (fun _ => True)).

Lemma sim0_sim B A {X V} (wm : W X) (rm : R V) v : sim0 B A wm rm v -> sim B A wm rm v.
Proof. intros H s _. now apply H. Qed.

Lemma sim_pure {X V} P (wm : W X) (rm : R V) v w :
  writes wm w -> reads rm w v -> simg P [] [] wm rm v.
Proof.
  intros Hw Hr s _ Ho _ _. destruct (Hw s) as [x Hx]. exists x, (w_app s w), w.
  repeat split; auto. { intros a []. }
  intros _ pre post off rr sk _ Hrr. exists rr. split; [apply Hr|].
  eapply refs_ok_mono; [exact Hrr|]. unfold wpos; cbn. rewrite zlen_app.
  pose proof (zlen_nonneg w). lia.
Qed.
Lemma sim_rt {X V} P n (wm : W X) (rm : R V) v : rt n wm rm v -> simg P [] [] wm rm v.
Proof. intros (w & _ & Hw & Hr). eapply sim_pure; eauto. Qed.

Lemma sim_ret {X V} P (x : X) (v : V) : simg P [] [] (ret x) (ret v) v.
Proof. eapply sim_rt. apply rt_ret. Qed.

Lemma nonempty_app s w s' : wp s' = wp s ++ w -> nonempty s -> nonempty s'.
Proof. unfold nonempty. intros -> H E. apply app_eq_nil in E as [E _]. contradiction. Qed.

Lemma wpos_app s s' w : wp s' = wp s ++ w -> woff s' = woff s -> wpos s' = wpos s + zlen w.
Proof. unfold wpos. intros -> ->. rewrite zlen_app. lia. Qed.

Lemma sim_bind {X Y V U} B1 A1 B2 A2 B A (wm : W X) (wk : X -> W Y) (rm : R V) (rk : V -> R U) v u :
  sim B1 A1 wm rm v -> (forall x, sim B2 A2 (wk x) (rk v) u) ->
  incl B1 B -> incl B2 (B ++ A1) -> 
  (forall a, In a A <-> In a A1 \/ In a A2) ->
  (forall a, In a A1 -> ~ In a A2) ->
  (forall b, In b B -> ~ In b A1) ->
  sim B A (bind wm wk) (bind rm rk) u.
Proof.
  intros H1 H2 IB1 IB2 HA Hd HB s Hne Ho HAn HBs.
  destruct (H1 s Hne Ho) as (x & s1 & w1 & E1 & P1 & O1 & Q1 & N1 & R1).
  { intros a Ha. apply HAn, HA; auto. }
  { intros b Hb. apply HBs, IB1; auto. }
  pose proof (wpos_app _ _ _ P1 O1) as L1. pose proof (zlen_nonneg w1).
  destruct (H2 x s1) as (y & s2 & w2 & E2 & P2 & O2 & Q2 & N2 & R2).
  { eapply nonempty_app; eauto. } { lia. }
  { intros a Ha. rewrite N1 by (intros F; eapply Hd; eauto). apply HAn, HA; auto. }
  { intros b Hb. apply IB2 in Hb. apply in_app_iff in Hb as [Hb|Hb].
    - destruct (HBs b Hb) as (q & Eq & Lq). exists q. rewrite N1 by now apply HB. split; [auto|lia].
    - auto. }
  pose proof (wpos_app _ _ _ P2 O2) as L2. pose proof (zlen_nonneg w2).
  exists y, s2, (w1 ++ w2). split; [now rewrite (bind_Ok _ _ _ _ _ E1)|].
  split; [now rewrite P2, P1, app_assoc|]. split; [lia|].
  split; [|split].
  - intros a Ha. apply HA in Ha as [Ha|Ha]; [|auto].
    destruct (Q1 a Ha) as (q & Eq & Lq). exists q. rewrite N2 by (intros F; eapply Hd; eauto).
    split; [auto|lia].
  - intros a Ha. rewrite N2 by (intros F; apply Ha, HA; auto).
    apply N1. intros F; apply Ha, HA; auto.
  - intros Hlt pre post off rr sk Hp Hrr.
    destruct (R1 ltac:(lia) pre (w2 ++ post) off rr sk Hp Hrr) as (rr1 & F1 & G1).
    destruct (R2 Hlt (pre ++ w1) post off rr1 sk) as (rr2 & F2 & G2); auto.
    { rewrite zlen_app. lia. }
    exists rr2. split; [|exact G2].
    rewrite <- app_assoc. rewrite (bind_Ok _ _ _ _ _ F1).
    rewrite zlen_app, <- !app_assoc in F2. rewrite F2.
    rewrite zlen_app, Z.add_assoc. reflexivity.
Qed.

(** Common special cases. *)
Lemma sim_seq_rt {X Y V U} n B A (wm : W X) (wk : W Y) (rm : R V) (rk : V -> R U) v u :
  rt n wm rm v -> sim B A wk (rk v) u -> sim B A (wm ;;; wk) (bind rm rk) u.
Proof.
  intros H1 H2. eapply sim_bind with (B1 := []) (A1 := []) (B2 := B) (A2 := A).
  - eapply sim_rt; eauto.
  - intros _; exact H2.
  - intros a [].
  - rewrite app_nil_r. apply incl_refl.
  - intros a; cbn; tauto.
  - intros a [].
  - auto.
Qed.

Lemma sim_seq {X Y V U} A1 A2 (wm : W X) (wk : W Y) (rm : R V) (rk : V -> R U) v u :
  sim [] A1 wm rm v -> sim [] A2 wk (rk v) u ->
  (forall a, In a A1 -> ~ In a A2) ->
  sim [] (A1 ++ A2) (wm ;;; wk) (bind rm rk) u.
Proof.
  intros H1 H2 D. eapply sim_bind; eauto.
  - intros a [].
  - intros a [].
  - intros a; apply in_app_iff.
Qed.

Lemma sim_rext {X V} P B A (wm : W X) (rm rm' : R V) v :
  simg P B A wm rm v -> (forall r, rm' r = rm r) -> simg P B A wm rm' v.
Proof.
  intros H E s Hne Ho HA HB. destruct (H s Hne Ho HA HB) as (x & s' & w & H1 & H2 & H3 & H4 & H5 & H6).
  exists x, s', w. repeat split; auto. intros. rewrite E. auto.
Qed.
Lemma sim_wext {X V} P B A (wm wm' : W X) (rm : R V) v :
  simg P B A wm rm v -> (forall s, wm' s = wm s) -> simg P B A wm' rm v.
Proof.
  intros H E s Hne Ho HA HB. destruct (H s Hne Ho HA HB) as (x & s' & w & H1 & H2 & H3 & H4 & H5 & H6).
  exists x, s', w. rewrite E. repeat split; auto.
Qed.

Lemma app_nonempty {A} (l : list A) x m : l ++ x :: m <> [].
Proof. destruct l; discriminate. Qed.

(** Reader of a headed record. *)
Lemma sim_header {X V} B A vers (body : W X) (k : header -> R V) v :
  is_i16 vers ->
  (forall pos len, sim B A body (k (mkH vers pos len)) v) ->
  sim0 B A (with_header vers body) (h <- read_header ;; k h) v.
Proof.
  intros Hv Hb s _ Ho HAn HBs.
  set (s1 := w_app s (be 4 0 ++ be 2 vers)).
  assert (Hs1 : wpos s1 = wpos s + 6) by (unfold wpos, s1; cbn; zlen_simpl; lia).
  destruct (Hb 0 0 s1) as (x & s2 & w & E & Pp & O & Q & N & _); auto.
  { unfold nonempty, s1, w_app, w_set_p. cbn [wp be app]. apply app_nonempty. }
  { intros b Hb'. destruct (HBs b Hb') as (q & Eq & Lq). exists q. split; [exact Eq|]. lia. }
  pose proof (zlen_nonneg w) as Hw0.
  assert (L2 : wpos s2 = wpos s + 6 + zlen w) by (rewrite (wpos_app s1 s2 w); auto; lia).
  (* final state *)
  set (f := be 4 (Z.lor (zlen w + 2) kByteCountMask) ++ be 2 vers ++ w).
  assert (Hfl : zlen f = 6 + zlen w) by (unfold f; zlen_simpl; rewrite !zlen_be; lia).
  set (s3 := w_set_p s2 (wp s ++ f)).
  assert (L3 : wpos s3 = wpos s2).
  { unfold wpos, s3. cbn [wp woff w_set_p]. unfold wpos in L2. rewrite zlen_app, Hfl.
    rewrite O in *. unfold s1 in *. cbn [woff w_app w_set_p] in *. lia. }
  exists (zlen w + 2 + 4), s3, f.
  assert (Hrun : with_header vers body s = Ok (zlen w + 2 + 4, s3)).
  { unfold with_header, write_header, gets.
    unfold bind at 1. unfold bind at 1. unfold write_u32, write_u16, write_int, put.
    unfold bind at 1. unfold bind at 1. unfold ret. rewrite w_app_app. fold s1.
    rewrite (bind_Ok _ _ _ _ _ E). unfold set_header, gets, bind at 1, bind at 1.
    unfold write_in_place.
    assert (Eo : woff s2 = woff s) by (rewrite O; reflexivity).
    rewrite Eo. replace (wpos s - woff s) with (zlen (wp s)) by (unfold wpos; lia).
    rewrite Pp. unfold s1 at 1. cbn [wp w_app w_set_p]. rewrite !zlen_app, !zlen_be.
    pose proof (zlen_nonneg (wp s)).
    replace (_ && _) with true by (symmetry; lia).
    unfold ret. replace (wpos s2 - wpos s - 4) with (zlen w + 2) by lia.
    do 3 f_equal. unfold s1. cbn [wp w_app w_set_p]. unfold f.
    rewrite <- !app_assoc. rewrite patch_mid by now rewrite !zlen_be. reflexivity. }
  split; [exact Hrun|]. split; [reflexivity|]. split; [exact O|].
  split; [|split].
  - intros a Ha. destruct (Q a Ha) as (q & Eq & Lq). exists q. split; [exact Eq|lia].
  - exact N.
  - intros Hlt pre post off rr sk Hp Hrr.
    destruct (reads_header vers (zlen w + 2) sk Hv pre (w ++ post) off rr) as (len & Hh).
    destruct (Hb (zlen pre + off) len s1) as (x' & s2' & w' & E' & P' & O' & _ & _ & R'); auto.
    { unfold nonempty, s1, w_app, w_set_p. cbn [wp be app]. apply app_nonempty. }
    { intros b Hb'. destruct (HBs b Hb') as (q & Eq & Lq). exists q. split; [exact Eq|]. lia. }
    rewrite E in E'. injection E' as -> <-.
    rewrite Pp in P'. apply app_inv_head in P'. subst w'.
    set (hb := be 4 (Z.lor (zlen w + 2) kByteCountMask) ++ be 2 vers) in *.
    destruct (R' ltac:(lia) (pre ++ hb) post off rr sk) as (rr' & F & G); auto.
    { rewrite zlen_app. unfold hb. rewrite zlen_app, !zlen_be. lia. }
    { eapply refs_ok_mono; [exact Hrr|lia]. }
    exists rr'. split; [|rewrite L3; exact G].
    unfold f. rewrite (app_assoc (be 4 _)). fold hb.
    rewrite <- (app_assoc hb). rewrite (bind_Ok _ _ _ _ _ Hh).
    assert (Hhl : zlen hb = 6) by (unfold hb; rewrite zlen_app, !zlen_be; reflexivity).
    rewrite zlen_app, Hhl, <- !app_assoc in F. rewrite F.
    rewrite zlen_app, Hhl, Z.add_assoc. reflexivity.
Qed.

(** The pure version. *)
Lemma rt_header {X V} n vers (body : W X) (k : header -> R V) v :
  is_i16 vers ->
  (forall pos len, rt n body (k (mkH vers pos len)) v) ->
  rt (6 + n) (with_header vers body) (h <- read_header ;; k h) v.
Proof.
  intros Hv Hb. destruct (Hb 0 0) as (w & L & Hw & _).
  exists (be 4 (Z.lor (zlen w + 2) kByteCountMask) ++ be 2 vers ++ w).
  split; [zlen_simpl; rewrite !zlen_be; lia|].
  split.
  { intros s. destruct (Hw (w_app s (be 4 0 ++ be 2 vers))) as [x Hx]. rewrite w_app_app in Hx.
    apply writes_header. eauto. }
  intros sk pre post off rr.
  destruct (reads_header vers (zlen w + 2) sk Hv pre (w ++ post) off rr) as (len & Hh).
  destruct (Hb (zlen pre + off) len) as (w' & L' & Hw' & Hr').
  pose proof (writes_det _ _ _ Hw' Hw) as ->.
  set (hb := be 4 (Z.lor (zlen w + 2) kByteCountMask) ++ be 2 vers) in *.
  rewrite (app_assoc (be 4 _)). fold hb. rewrite <- (app_assoc hb).
  rewrite (bind_Ok _ _ _ _ _ Hh).
  assert (Hhl : zlen hb = 6) by (unfold hb; rewrite zlen_app, !zlen_be; reflexivity).
  specialize (Hr' sk (pre ++ hb) post off rr). rewrite zlen_app, Hhl, <- !app_assoc in Hr'.
  rewrite Hr'. rewrite zlen_app, Hhl, Z.add_assoc. reflexivity.
Qed.

(** Lists of objects, in order. *)
Lemma sim_list {T V} (wf : T -> W unit) (rf : R V) (ad : T -> list Z) (vf : T -> V) (l : list T) :
  (forall t, In t l -> sim [] (ad t) (wf t) rf (vf t)) ->
  NoDup (flat_map ad l) ->
  sim [] (flat_map ad l) (iterM wf l) (repeatM (length l) rf) (map vf l).
Proof.
  induction l as [|t l IH]; intros H ND; cbn [flat_map iterM repeatM map length].
  - apply sim_ret.
  - cbn [flat_map] in ND.
    assert (D : forall a, In a (ad t) -> ~ In a (flat_map ad l)).
    { intros a Ha Hl. revert Ha Hl. clear -ND. induction (ad t) as [|y r IHr]; [intros []|].
      cbn in ND. inversion ND; subst. intros [->|Ha] Hl.
      - apply H1. apply in_app_iff; now right.
      - now apply IHr. }
    eapply sim_seq; [apply H; now left| |exact D].
    rewrite <- (app_nil_r (flat_map ad l)).
    eapply sim_wext; [eapply sim_seq with (wk := ret tt)|].
    + apply IH; [intros; apply H; now right|].
      clear -ND. induction (ad t) as [|y r IHr]; auto. inversion ND; auto.
    + apply sim_ret.
    + intros a _ [].
    + intros s. unfold bind, ret. destruct (iterM wf l s) as [[[] ?]| | | |]; reflexivity.
Qed.
