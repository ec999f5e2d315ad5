(** Polymorphic objects: [read_object_any_into] (rbytes/rbuffer.rs) against
    [write_object_any] (rbytes/wbuffer.rs). *)
From Verif Require Export Codec.

(** rbuffer.rs 271-427 [read_object_any_into].  [known] says whether
    [rtypes::FACTORY.get] (rtypes/factory.rs 172-224) knows a class; [um c] is
    "build a [c] with its factory function and unmarshal it".  The two [todo!]
    are panics. *)
Definition read_object_any {O} (known : bytes -> bool) (um : bytes -> R O) : R (option O) :=
  bcnt <- read_u32 ;;
  ' (vers, start, tag) <-
    (if (Z.land bcnt kByteCountMask =? 0) || (bcnt =? kNewClassTag)
     then ret (0, 0, bcnt)
     else start <- gets r_pos ;; tag <- read_u32 ;; ret (1, start, tag)) ;;
  if Z.land tag kClassMask =? 0 then
    if tag =? kNullTag then ret None
    else if tag =? 1 then fail EMisc
    else ret None
  else if tag =? kNewClassTag then
    cname <- read_cstring 80 ;;
    if negb (known cname) then fail EClassNotRegistered
    else if negb (0 <? vers) then panic
    else
      modify (fun r => r_set_refs r ((start + kMapOffset, cname) :: rrefs r)) ;;;
      o <- um cname ;; ret (Some o)
  else
    let uref := Z.ldiff tag kClassMask in
    r <- gets (fun r => r) ;;
    match alookup Z.eqb uref (rrefs r) with
    | None => panic
    | Some cname => o <- um cname ;; ret (Some o)
    end.

(** ** Facts about tags *)
Lemma testbit_small k n : 0 <= k < 2 ^ n -> 0 <= n -> Z.testbit k n = false.
Proof.
  intros H Hn. destruct (Z.eq_dec k 0) as [->|Hk]; [apply Z.bits_0|].
  apply Z.bits_above_log2; [lia|]. apply Z.log2_lt_pow2; lia.
Qed.

Lemma land_pow2_small k n : 0 <= n -> 0 <= k < 2 ^ n -> Z.land k (2 ^ n) = 0.
Proof.
  intros Hn H. apply Z.bits_inj'. intros i Hi. rewrite Z.land_spec, Z.bits_0.
  rewrite Z.pow2_bits_eqb by lia. destruct (Z.eqb_spec n i) as [<-|]; [|now rewrite andb_false_r].
  rewrite testbit_small by lia. reflexivity.
Qed.

Lemma lor_class k : 0 <= k < 2 ^ 31 -> Z.lor k kClassMask = k + 2 ^ 31.
Proof.
  intros H. change kClassMask with (2 ^ 31).
  pose proof (land_pow2_small k 31 ltac:(lia) H) as E.
  rewrite <- Z.lxor_lor by exact E. symmetry. now apply Z.add_nocarry_lxor.
Qed.

Lemma ldiff_class k : 0 <= k < 2 ^ 31 -> Z.ldiff (k + 2 ^ 31) kClassMask = k.
Proof.
  intros H. rewrite <- lor_class by exact H. apply Z.bits_inj'. intros i Hi.
  rewrite Z.ldiff_spec, Z.lor_spec. change kClassMask with (2 ^ 31).
  rewrite Z.pow2_bits_eqb by lia. destruct (Z.eqb_spec 31 i) as [<-|].
  - rewrite testbit_small by lia. reflexivity.
  - now rewrite orb_false_r, andb_true_r.
Qed.

Lemma land_class k : 0 <= k < 2 ^ 31 -> Z.land (k + 2 ^ 31) kClassMask <> 0.
Proof.
  intros H E. rewrite <- lor_class in E by exact H.
  apply (f_equal (fun z => Z.testbit z 31)) in E. rewrite Z.land_spec, Z.lor_spec, Z.bits_0 in E.
  change (Z.testbit kClassMask 31) with true in E. rewrite orb_true_r in E. discriminate.
Qed.

Lemma lor_lt_pow2 a b n : 0 <= n -> 0 <= a < 2 ^ n -> 0 <= b < 2 ^ n -> 0 <= Z.lor a b < 2 ^ n.
Proof.
  intros Hn Ha Hb. assert (H0 : 0 <= Z.lor a b) by (apply Z.lor_nonneg; lia).
  split; [exact H0|].
  destruct (Z.eq_dec (Z.lor a b) 0) as [E|E]; [rewrite E; apply Z.pow_pos_nonneg; lia|].
  apply Z.log2_lt_pow2; [lia|]. rewrite Z.log2_lor by lia.
  destruct (Z.eq_dec a 0) as [->|], (Z.eq_dec b 0) as [->|].
  - cbn in E. lia.
  - apply Z.max_lub_lt; [|apply Z.log2_lt_pow2; lia].
    change (Z.log2 0) with 0. destruct (Z.eq_dec n 0) as [->|]; [cbn in Hb; lia|lia].
  - apply Z.max_lub_lt; [apply Z.log2_lt_pow2; lia|].
    change (Z.log2 0) with 0. destruct (Z.eq_dec n 0) as [->|]; [cbn in Ha; lia|lia].
  - apply Z.max_lub_lt; apply Z.log2_lt_pow2; lia.
Qed.

(** A byte count written by the writer, seen by the reader. *)
Lemma bcnt_range n : 0 <= n < 2 ^ 31 ->
  let z := Z.lor n kByteCountMask in
  0 <= z < 2 ^ 31 /\ Z.land z kByteCountMask <> 0.
Proof.
  intros H z. assert (Hz : 0 <= z < 2 ^ 31) by (apply lor_lt_pow2; [lia|lia|cbv; split; congruence]).
  split; [exact Hz|]. pose proof (lor_mask_bit n) as L. fold z in L.
  rewrite Z.mod_small in L by lia. exact L.
Qed.

(** NUL-free class names that fit the reader's 80-byte window. *)
Definition cname_ok (c : bytes) : Prop :=
  forallb (fun b => negb (b =? 0)) c = true /\ utf8_valid c = true /\ zlen c <= 80.

Lemma until0_nonul c rest : forallb (fun b => negb (b =? 0)) c = true ->
  until0 (c ++ rest) = c ++ until0 rest.
Proof.
  induction c as [|x c IH]; cbn; auto. intros H. apply andb_true_iff in H as [H1 H2].
  destruct (x =? 0); [discriminate|]. now rewrite IH.
Qed.

Lemma firstn_app_le {A} (a b : list A) n : (length a <= n)%nat ->
  firstn n (a ++ b) = a ++ firstn (n - length a) b.
Proof. intros H. rewrite firstn_app. f_equal. now apply firstn_all2. Qed.

Lemma reads_cstring c sk : cname_ok c -> reads_sk sk (read_cstring 80) (c ++ [0]) c.
Proof.
  intros (Hn & Hu & Hl) pre post off rr.
  unfold read_cstring, extract_until, bind. cbn [rp rc].
  rewrite !zlen_app. change (zlen [0]) with 1.
  pose proof (zlen_nonneg pre). pose proof (zlen_nonneg c). pose proof (zlen_nonneg post).
  set (m := Z.min _ _).
  assert (Hm : zlen pre <= m) by (unfold m; lia).
  replace (_ && _) with true by (symmetry; lia).
  assert (Hp : until0 (zsub (pre ++ (c ++ [0]) ++ post) (zlen pre) (m - zlen pre)) = c).
  { unfold zsub. replace (Z.to_nat (zlen pre)) with (length pre) by (rewrite zlen_def; lia).
    rewrite skipn_app, skipn_all, Nat.sub_diag. cbn [app skipn].
    assert (Hlc : (length c <= Z.to_nat (m - zlen pre))%nat).
    { rewrite zlen_def in Hl. unfold m. rewrite !zlen_def in *. lia. }
    rewrite <- app_assoc, firstn_app_le by exact Hlc.
    rewrite until0_nonul by exact Hn. cbn [app].
    destruct (Z.to_nat (m - zlen pre) - length c)%nat; cbn; now rewrite app_nil_r. }
  rewrite Hp, Hu. unfold ret, r_set_c. cbn [rp rc roff rrefs rskip].
  do 3 f_equal. lia.
Qed.

Lemma writes_cstring c : writes (write_cstring c) (c ++ [0]).
Proof.
  apply writes_bind; [apply writes_put|]. intros _. apply (writes_int 1 0).
Qed.

Lemma alookup_cons_ne {V} a a' (v : V) l : a <> a' ->
  alookup Z.eqb a ((a', v) :: l) = alookup Z.eqb a l.
Proof. intros H. cbn. destruct (Z.eqb_spec a a'); [contradiction|reflexivity]. Qed.
Lemma alookup_cons_eq {V} a (v : V) l : alookup Z.eqb a ((a, v) :: l) = Some v.
Proof. cbn. now rewrite Z.eqb_refl. Qed.

Lemma len_minus_1_ok s : nonempty s -> len_minus_1 s = Ok (tt, s).
Proof.
  intros H. unfold len_minus_1. destruct (Z.eqb_spec (zlen (wp s)) 0) as [E|]; [|reflexivity].
  exfalso. apply H. now apply zlen_0_nil.
Qed.

(** Reading [be 4 z] as an unsigned integer below [2^32]. *)
Lemma reads_u32_at z sk pre post off rr : is_u32 z ->
  read_u32 (mkR (pre ++ be 4 z ++ post) (zlen pre) off rr sk)
  = Ok (z, mkR (pre ++ be 4 z ++ post) (zlen pre + 4) off rr sk).
Proof. intros H. pose proof (reads_uint 4 z sk H pre post off rr) as E. rewrite zlen_be in E. exact E. Qed.

(** The first two words of a written object, as seen by the reader. *)
Lemma roa_front {O} (known : bytes -> bool) (um : bytes -> R O) bc tag pre post off rr sk :
  0 <= bc < 2 ^ 31 -> is_u32 tag ->
  read_object_any known um
    (mkR (pre ++ (be 4 (Z.lor bc kByteCountMask) ++ be 4 tag) ++ post) (zlen pre) off rr sk)
  = (if Z.land tag kClassMask =? 0 then
       if tag =? kNullTag then ret None else if tag =? 1 then fail EMisc else ret None
     else if tag =? kNewClassTag then
       cname <- read_cstring 80 ;;
       if negb (known cname) then fail EClassNotRegistered
       else
         modify (fun r => r_set_refs r ((zlen pre + 4 + off + kMapOffset, cname) :: rrefs r)) ;;;
         o <- um cname ;; ret (Some o)
     else
       r <- gets (fun r => r) ;;
       match alookup Z.eqb (Z.ldiff tag kClassMask) (rrefs r) with
       | None => panic
       | Some cname => o <- um cname ;; ret (Some o)
       end)
    (mkR (pre ++ (be 4 (Z.lor bc kByteCountMask) ++ be 4 tag) ++ post) (zlen pre + 8) off rr sk).
Proof.
  intros Hbc Ht. unfold read_object_any.
  destruct (bcnt_range bc Hbc) as [Hz Hm]. set (z := Z.lor bc kByteCountMask) in *.
  assert (Hz32 : is_u32 z) by (red; lia).
  pose proof (reads_u32_at z sk pre (be 4 tag ++ post) off rr Hz32) as H1.
  rewrite <- app_assoc. rewrite (bind_Ok _ _ _ _ _ H1).
  destruct (Z.eqb_spec (Z.land z kByteCountMask) 0) as [E|_]; [contradiction|].
  destruct (Z.eqb_spec z kNewClassTag) as [E|_]; [unfold kNewClassTag in E; lia|].
  cbn [orb].
  pose proof (reads_u32_at tag sk (pre ++ be 4 z) post off rr Ht) as H2.
  rewrite zlen_app, zlen_be, <- !app_assoc in H2. change (Z.of_nat 4) with 4 in H2.
  assert (H3 : (start <- gets r_pos ;; tag0 <- read_u32 ;; ret (1, start, tag0))
     (mkR (pre ++ be 4 z ++ be 4 tag ++ post) (zlen pre + 4) off rr sk)
     = Ok ((1, zlen pre + 4 + off, tag),
           mkR (pre ++ be 4 z ++ be 4 tag ++ post) (zlen pre + 4 + 4) off rr sk)).
  { unfold gets, bind at 1. cbn [r_pos rc roff]. rewrite (bind_Ok _ _ _ _ _ H2). reflexivity. }
  rewrite (bind_Ok _ _ _ _ _ H3). cbn [Z.ltb Z.compare negb].
  replace (zlen pre + 4 + 4) with (zlen pre + 8) by lia. reflexivity.
Qed.

(** ** Simulation of a freshly written object *)
Lemma sim_object_any {O} (known : bytes -> bool) (um : bytes -> R O) B A class addr (marsh : W Z) (v : O) :
  cname_ok class -> known class = true ->
  ~ In addr A -> ~ In addr B ->
  sim B A marsh (um class) v ->
  sim B (addr :: A) (write_object_any class addr marsh) (read_object_any known um) (Some v).
Proof.
  intros Hc Hk HnA HnB Hm s Hne Ho HAn HBs.
  pose proof (zlen_nonneg (wp s)) as Hlen.
  set (s0 := w_app s (be 4 0)).
  assert (Hne0 : nonempty s0) by (unfold nonempty, s0; cbn [wp w_app w_set_p be]; apply app_nonempty).
  assert (Hp0 : wpos s0 = wpos s + 4) by (unfold wpos, s0; cbn [wp woff w_app w_set_p]; rewrite zlen_app, zlen_be; lia).
  assert (Haddr : alookup Z.eqb addr (wrefp s) = None) by (apply HAn; now left).
  (* what happens once the class tag [tw] has been written and the body run *)
  assert (Main : forall (tw : bytes) (s1 s2 : wbuf) (w : bytes) (refp : list (Z*Z)),
    4 <= zlen tw ->
    wp s1 = wp s ++ be 4 0 ++ tw -> woff s1 = woff s ->
    wp s2 = wp s1 ++ w -> woff s2 = woff s1 ->
    write_class (wpos s) class addr marsh s0
      = Ok (Z.lor (zlen tw + zlen w) kByteCountMask, mkW (wp s2) (woff s2) refp (wrefs s2)) ->
    write_object_any class addr marsh s
      = Ok (4 + zlen tw + zlen w,
            mkW (wp s ++ be 4 (Z.lor (zlen tw + zlen w) kByteCountMask) ++ tw ++ w) (woff s) refp (wrefs s2))).
  { intros tw s1 s2 w refp Htw P1 O1 P2 O2 Hw. pose proof (zlen_nonneg w).
    unfold write_object_any, gets, bind at 1.
    rewrite (bind_Ok _ _ _ _ _ (len_minus_1_ok s Hne)).
    unfold write_i32, write_int, put. unfold bind at 1. fold s0.
    rewrite (bind_Ok _ _ _ _ _ Hw).
    unfold bind at 1. unfold write_in_place. cbn [wp woff].
    assert (E2 : woff s2 = woff s) by lia. rewrite E2.
    assert (Ewp : wp s2 = wp s ++ be 4 0 ++ tw ++ w) by (rewrite P2, P1, <- !app_assoc; reflexivity).
    rewrite Ewp. replace (wpos s - woff s) with (zlen (wp s)) by (unfold wpos; lia).
    rewrite !zlen_app, !zlen_be.
    replace (_ && _) with true by (symmetry; lia).
    rewrite patch_mid by now rewrite !zlen_be.
    unfold bind, ret. cbn [wp woff w_set_p wrefp wrefs].
    assert (Eb : be 4 (to_u32 (Z.lor (zlen tw + zlen w) kByteCountMask)) = be 4 (Z.lor (zlen tw + zlen w) kByteCountMask))
      by apply (be_mod 4).
    rewrite Eb. unfold w_set_p, wpos. cbn [wp woff]. rewrite !zlen_app, zlen_be.
    do 2 f_equal. lia. }
  unfold write_class in Main.
  destruct (alookup beqb class (wrefs s)) as [rv|] eqn:Ecl.
  - (* class already named *)
    set (tw := be 4 (Z.lor (to_u32 rv) kClassMask)).
    set (s1 := w_app s0 tw).
    assert (Hp1 : wpos s1 = wpos s + 8) by (unfold wpos, s1, s0, tw; cbn [wp woff w_app w_set_p]; rewrite !zlen_app, !zlen_be; lia).
    destruct (Hm s1) as (x & s2 & w & E & P2 & O2 & Q & N & Rd).
    { unfold nonempty, s1, tw; cbn [wp w_app w_set_p be]; apply app_nonempty. }
    { exact Ho. }
    { intros a Ha. apply HAn. now right. }
    { intros b Hb. destruct (HBs b Hb) as (q & Eq & Lq). exists q. split; [exact Eq|lia]. }
    pose proof (zlen_nonneg w) as Hw0.
    assert (Hp2 : wpos s2 = wpos s1 + zlen w) by now apply wpos_app.
    assert (Htw : zlen tw = 4) by (unfold tw; now rewrite zlen_be).
    specialize (Main tw s1 s2 w ((addr, wpos s + kMapOffset) :: wrefp s2)).
    set (sf := mkW (wp s ++ be 4 (Z.lor (zlen tw + zlen w) kByteCountMask) ++ tw ++ w) (woff s)
                   ((addr, wpos s + kMapOffset) :: wrefp s2) (wrefs s2)) in *.
    assert (Hf : wpos sf = wpos s2).
    { unfold sf. unfold wpos at 1. cbn [wp woff]. rewrite !zlen_app, zlen_be. unfold wpos in *. lia. }
    exists (4 + zlen tw + zlen w), sf, (be 4 (Z.lor (zlen tw + zlen w) kByteCountMask) ++ tw ++ w).
    split; [|split; [|split; [|split; [|split]]]].
    + apply Main; auto; [lia|unfold s1, s0; cbn [wp w_app w_set_p]; now rewrite <- app_assoc|].
      rewrite (bind_Ok _ _ _ _ _ (len_minus_1_ok s0 Hne0)).
      unfold gets, bind at 1, bind at 1.
      change (wrefp s0) with (wrefp s). change (wrefs s0) with (wrefs s). rewrite Haddr, Ecl.
      unfold write_u32, write_int, put, bind at 1. fold tw. fold s1.
      rewrite (bind_Ok _ _ _ _ _ E). unfold modify, bind, gets, ret. cbn [wp woff].
      apply Ok_eq; [|reflexivity]. f_equal. change (wpos s2 - wpos s0 = zlen tw + zlen w). lia.
    + reflexivity.
    + reflexivity.
    + intros a [<-|Ha].
      * exists (wpos s + kMapOffset). split; [apply alookup_cons_eq|].
        rewrite Hf. unfold kMapOffset. unfold wpos in *. lia.
      * destruct (Q a Ha) as (q & Eq & Lq). exists q. cbn [wrefp sf].
        rewrite alookup_cons_ne by (intros ->; contradiction). split; [exact Eq|]. rewrite Hf. exact Lq.
    + intros a Ha. cbn [wrefp sf]. rewrite alookup_cons_ne by (intros ->; apply Ha; now left).
      apply N. intros F; apply Ha; now right.
    + intros Hlt pre post off rr sk Hpre Hrr.
      assert (Hlt2 : wpos s2 < 2 ^ 31) by lia.
      destruct (Hrr class rv Ecl) as (k & Ev & Hk1 & Hk2 & Hk3).
      assert (Etag : Z.lor (to_u32 rv) kClassMask = k + 2 ^ 31).
      { rewrite Ev, (lor_class k) by lia. rewrite to_u32_id by (red; lia).
        rewrite <- (lor_class k) by lia. rewrite <- Z.lor_assoc, Z.lor_diag. reflexivity. }
      rewrite (app_assoc (be 4 _) tw w). unfold tw. rewrite Etag.
      rewrite <- (app_assoc _ w post).
      rewrite roa_front; [|unfold wpos in *; rewrite zlen_be; lia|red; lia].
      destruct (Z.eqb_spec (Z.land (k + 2 ^ 31) kClassMask) 0) as [F|_]; [exfalso; revert F; apply land_class; lia|].
      destruct (Z.eqb_spec (k + 2 ^ 31) kNewClassTag) as [F|_].
      { (* the tag would be 2^31 - 1, excluded by the position bound *)
        unfold kNewClassTag in F. unfold wpos in *. lia. }
      rewrite ldiff_class by lia. unfold gets, bind at 1. cbn [rrefs]. rewrite Hk3.
      set (hd := be 4 _ ++ be 4 (k + 2 ^ 31)).
      assert (Hhd : zlen hd = 8) by (unfold hd; rewrite zlen_app, !zlen_be; reflexivity).
      destruct (Rd Hlt2 (pre ++ hd) post off rr sk) as (rr' & F & G).
      { rewrite zlen_app, Hhd. lia. }
      { eapply refs_ok_mono; [exact Hrr|lia]. }
      exists rr'. rewrite zlen_app, Hhd, <- app_assoc in F.
      split; [|rewrite Hf].
      * rewrite (bind_Ok _ _ _ _ _ F). unfold ret.
        apply Ok_eq; [reflexivity|]. rewrite zlen_app, Hhd. f_equal. lia.
      * exact G.
  - (* first object of its class *)
    set (tw := be 4 kNewClassTag ++ class ++ [0]).
    pose proof (zlen_nonneg class) as Hcl0.
    set (s1 := mkW (wp s0 ++ tw) (woff s) ((addr, wpos s + kMapOffset) :: wrefp s)
                   ((class, Z.lor (wpos s0 + kMapOffset) kClassMask) :: wrefs s)).
    assert (Htw : zlen tw = 5 + zlen class) by (unfold tw; rewrite !zlen_app, zlen_be; change (zlen [0]) with 1; lia).
    assert (Hp1 : wpos s1 = wpos s + 4 + zlen tw).
    { unfold wpos, s1, s0; cbn [wp woff w_app w_set_p]; rewrite !zlen_app, !zlen_be. lia. }
    destruct (Hm s1) as (x & s2 & w & E & P2 & O2 & Q & N & Rd).
    { unfold nonempty, s1, tw; cbn [wp be app]. apply app_nonempty. }
    { exact Ho. }
    { intros a Ha. cbn [wrefp s1]. rewrite alookup_cons_ne by (intros ->; contradiction).
      apply HAn. now right. }
    { intros b Hb. destruct (HBs b Hb) as (q & Eq & Lq). exists q. cbn [wrefp s1].
      rewrite alookup_cons_ne by (intros ->; contradiction). split; [exact Eq|lia]. }
    pose proof (zlen_nonneg w) as Hw0.
    assert (Hp2 : wpos s2 = wpos s1 + zlen w) by now apply wpos_app.
    specialize (Main tw s1 s2 w (wrefp s2)).
    set (sf := mkW (wp s ++ be 4 (Z.lor (zlen tw + zlen w) kByteCountMask) ++ tw ++ w) (woff s)
                   (wrefp s2) (wrefs s2)) in *.
    assert (Hf : wpos sf = wpos s2).
    { unfold sf. unfold wpos at 1. cbn [wp woff]. rewrite !zlen_app, zlen_be. unfold wpos in *. lia. }
    exists (4 + zlen tw + zlen w), sf, (be 4 (Z.lor (zlen tw + zlen w) kByteCountMask) ++ tw ++ w).
    split; [|split; [|split; [|split; [|split]]]].
    + apply Main; auto; [lia|unfold s1, s0; cbn [wp w_app w_set_p]; now rewrite <- app_assoc|].
      rewrite (bind_Ok _ _ _ _ _ (len_minus_1_ok s0 Hne0)).
      unfold gets, bind at 1, bind at 1.
      change (wrefp s0) with (wrefp s). change (wrefs s0) with (wrefs s). rewrite Haddr, Ecl.
      unfold write_u32, write_int, put, bind at 1.
      destruct (writes_cstring class (w_app s0 (be 4 kNewClassTag))) as [[] Hcs].
      rewrite (bind_Ok _ _ _ _ _ Hcs). rewrite w_app_app. fold tw.
      unfold modify, bind at 1. cbn [wp woff wrefp wrefs w_app w_set_p].
      change (mkW (wp s0 ++ tw) (woff s0) ((addr, wpos s + kMapOffset) :: wrefp s0)
                ((class, Z.lor (wpos s0 + kMapOffset) kClassMask) :: wrefs s0)) with s1.
      rewrite (bind_Ok _ _ _ _ _ E). unfold bind, gets, ret.
      apply Ok_eq; [f_equal; lia|]. now destruct s2.
    + reflexivity.
    + reflexivity.
    + intros a [<-|Ha].
      * exists (wpos s + kMapOffset). cbn [wrefp].
        rewrite N by exact HnA. cbn [wrefp s1]. split; [apply alookup_cons_eq|].
        rewrite Hf. unfold kMapOffset. unfold wpos in *. lia.
      * destruct (Q a Ha) as (q & Eq & Lq). exists q. split; [exact Eq|]. rewrite Hf. exact Lq.
    + intros a Ha. cbn [wrefp sf]. rewrite N by (intros F; apply Ha; now right).
      cbn [wrefp s1]. apply alookup_cons_ne. intros ->; apply Ha; now left.
    + intros Hlt pre post off rr sk Hpre Hrr.
      assert (Hlt2 : wpos s2 < 2 ^ 31) by lia.
      unfold tw. rewrite <- (app_assoc (be 4 kNewClassTag)).
      rewrite (app_assoc (be 4 (Z.lor _ _)) (be 4 kNewClassTag)).
      fold tw.
      rewrite <- (app_assoc (be 4 (Z.lor _ _) ++ be 4 kNewClassTag) _ post).
      rewrite roa_front; [|unfold wpos in *; lia|red; vm_compute; split; congruence].
      change (Z.land kNewClassTag kClassMask =? 0) with false.
      change (kNewClassTag =? kNewClassTag) with true. cbv iota.
      set (hd := be 4 _ ++ be 4 kNewClassTag).
      assert (Hhd : zlen hd = 8) by (unfold hd; rewrite zlen_app, !zlen_be; reflexivity).
      pose proof (reads_cstring class sk Hc (pre ++ hd) (w ++ post) off rr) as Hrc.
      rewrite zlen_app, Hhd, <- !app_assoc in Hrc.
      rewrite <- !app_assoc. rewrite (bind_Ok _ _ _ _ _ Hrc). rewrite Hk. cbn [negb].
      unfold modify, bind at 1. unfold r_set_refs. cbn [rp rc roff rrefs rskip].
      destruct (Rd Hlt2 (pre ++ hd ++ class ++ [0]) post off
         ((zlen pre + 4 + off + kMapOffset, class) :: rr) sk) as (rr' & F & G).
      { rewrite !zlen_app, Hhd. change (zlen [0]) with 1. lia. }
      { intros c v0 Ecv. cbn [wrefs s1 alookup] in Ecv.
        destruct (beqb_spec c class) as [->|Hcne].
        - injection Ecv as <-. exists (wpos s0 + kMapOffset). split; [reflexivity|].
          unfold kMapOffset. split; [unfold wpos in *; lia|]. split; [lia|].
          replace (zlen pre + 4 + off + 2) with (wpos s0 + 2) by lia. apply alookup_cons_eq.
        - destruct (Hrr c v0 Ecv) as (k & K1 & K2 & K3 & K4). exists k. repeat split; auto; try lia.
          rewrite alookup_cons_ne; [exact K4|]. unfold kMapOffset. lia. }
      exists rr'. rewrite !zlen_app, Hhd, <- !app_assoc in F. rewrite !zlen_app.
      change (zlen [0]) with 1 in *.
      split.
      * replace (zlen pre + 8 + (zlen class + 1)) with (zlen pre + (8 + (zlen class + 1))) by lia.
        rewrite (bind_Ok _ _ _ _ _ F). unfold ret. apply Ok_eq; [reflexivity|]. rewrite Hhd. f_equal; lia.
      * rewrite Hf. exact G.
Qed.

(** An object already in the stream is written as a reference; the reader
    returns nothing for it. *)
Lemma sim_object_ref {O} (known : bytes -> bool) (um : bytes -> R O) class addr (marsh : W Z) :
  sim [addr] [] (write_object_any class addr marsh) (read_object_any known um) None.
Proof.
  intros s Hne Ho _ HBs. destruct (HBs addr (or_introl eq_refl)) as (q & Eq & Lq).
  pose proof (zlen_nonneg (wp s)) as Hlen.
  set (s0 := w_app s (be 4 0)).
  assert (Hne0 : nonempty s0) by (unfold nonempty, s0; cbn [wp w_app w_set_p be]; apply app_nonempty).
  exists 8, (w_app s (be 4 (Z.lor 4 kByteCountMask) ++ be 4 q)), (be 4 (Z.lor 4 kByteCountMask) ++ be 4 q).
  split; [|split; [reflexivity|split; [reflexivity|split; [intros a []|split; [reflexivity|]]]]].
  - unfold write_object_any, gets, bind at 1.
    rewrite (bind_Ok _ _ _ _ _ (len_minus_1_ok s Hne)).
    unfold write_i32, write_int, put. unfold bind at 1. fold s0.
    assert (Hw : write_class (wpos s) class addr marsh s0
       = Ok (Z.lor 4 kByteCountMask, w_app s0 (be 4 q))).
    { unfold write_class. rewrite (bind_Ok _ _ _ _ _ (len_minus_1_ok s0 Hne0)).
      unfold gets, bind at 1, bind at 1. change (wrefp s0) with (wrefp s). rewrite Eq.
      unfold write_u32, write_int, put, bind, ret.
      do 3 f_equal. unfold wpos; cbn [wp woff w_app w_set_p]. rewrite zlen_app, zlen_be. lia. }
    rewrite (bind_Ok _ _ _ _ _ Hw).
    unfold bind at 1. unfold write_in_place. unfold s0. rewrite w_app_app. cbn [wp woff w_app w_set_p].
    replace (wpos s - woff s) with (zlen (wp s)) by (unfold wpos; lia).
    rewrite !zlen_app, !zlen_be. replace (_ && _) with true by (symmetry; lia).
    rewrite patch_mid by now rewrite !zlen_be.
    unfold bind, ret. unfold w_set_p, wpos; cbn [wp woff wrefp wrefs w_set_p].
    rewrite !zlen_app, !zlen_be. apply Ok_eq; [cbn [woff w_app w_set_p]; lia|reflexivity].
  - intros Hlt pre post off rr sk Hpre Hrr. exists rr.
    unfold wpos in Hlt. cbn [wp woff w_app w_set_p] in Hlt. rewrite !zlen_app, !zlen_be in Hlt.
    unfold wpos in Lq.
    rewrite roa_front; [|lia|red; lia].
    change kClassMask with (2 ^ 31). rewrite land_pow2_small by lia. cbn [Z.eqb].
    unfold kNullTag. destruct (Z.eqb_spec q 0); [lia|]. destruct (Z.eqb_spec q 1); [lia|].
    unfold ret. rewrite zlen_app, !zlen_be. split; [reflexivity|].
    eapply refs_ok_mono; [exact Hrr|]. unfold wpos; cbn [wp woff w_app w_set_p].
    rewrite !zlen_app, !zlen_be. lia.
Qed.

(** A nil object. *)
Lemma rt_nil {O} (known : bytes -> bool) (um : bytes -> R O) :
  rt 4 write_object_nil (read_object_any known um) None.
Proof.
  exists (be 4 0). split; [apply zlen_be|]. split; [apply writes_int|].
  intros sk pre post off rr. unfold read_object_any.
  rewrite (bind_Ok _ _ _ _ _ (reads_u32_at 0 sk pre post off rr ltac:(red; lia))).
  change (Z.land 0 kByteCountMask =? 0) with true. cbn [orb].
  unfold bind at 1, ret at 1. change (Z.land 0 kClassMask =? 0) with true. cbn iota.
  change (0 =? kNullTag) with true. cbn iota. unfold ret. rewrite zlen_be. reflexivity.
Qed.
