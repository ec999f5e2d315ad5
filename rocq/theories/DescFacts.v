(** The writers of trees against the description-driven reader of [SpecDesc.v]. *)
From Verif Require Import Base Bytes Utf8 RBuf WBuf Codec ObjAny Obj Streamer RObj TreeObj SpecDesc.

Definition c_past (c : cursor) (rest : bytes) (n : Z) : cursor :=
  mkCur rest (c_at c + n) (c_classes c) (c_objects c) (c_count c).

Lemma take_ok w rest c : c_todo c = w ++ rest -> take (zlen w) c = Ok (w, c_past c rest (zlen w)).
Proof.
  intros E. unfold take. rewrite E, zlen_app. pose proof (zlen_nonneg w). pose proof (zlen_nonneg rest).
  replace (_ && _) with true by (symmetry; lia).
  unfold c_move, c_past. rewrite E. rewrite zlen_def, Nat2Z.id.
  rewrite firstn_app, firstn_all, Nat.sub_diag, skipn_app, skipn_all, Nat.sub_diag. cbn [firstn skipn app].
  rewrite app_nil_r. reflexivity.
Qed.

(** ** Writers that do not touch the tables *)
Definition gpure {X V} (wm : W X) (gm : G V) (v : V) : Prop :=
  exists w, writes wm w /\ forall c rest, c_todo c = w ++ rest -> gm c = Ok (v, c_past c rest (zlen w)).

Lemma gp_bytes {V} (wm : W unit) w (f : bytes -> V) : writes wm w -> gpure wm (b <- take (zlen w) ;; ret (f b)) (f w).
Proof. intros H. exists w. split; [exact H|]. intros c rest E. unfold bind. rewrite (take_ok _ _ _ E). reflexivity. Qed.

Lemma gp_num (sg : bool) n z : (0 < n)%nat -> (if sg then in_s n z else in_u n z) -> gpure (write_int n z) (num sg n) z.
Proof.
  intros N H. unfold num. rewrite <- (zlen_be n z).
  replace z with (if sg then sgn n (de (be n z)) else de (be n z)) at 3.
  - apply (gp_bytes (write_int n z) (be n z) (fun b => if sg then sgn n (de b) else de b)). apply writes_int.
  - destruct sg; [|now apply de_be_u]. rewrite de_be. now apply sgn_mod.
Qed.

Lemma gp_ret {V} (v : V) : gpure (ret tt) (ret v) v.
Proof.
  exists []. split; [apply writes_ret|]. intros c rest E. cbn [app] in E. unfold c_past. rewrite <- E, (@zlen_nil Z), Z.add_0_r. now destruct c.
Qed.
Lemma gp_seq {X Y V U} (wm : W X) (wk : W Y) (gm : G V) (gk : V -> G U) v u :
  gpure wm gm v -> gpure wk (gk v) u -> gpure (wm ;;; wk) (bind gm gk) u.
Proof.
  intros (w & Hw & Hg) (w' & Hw' & Hg'). exists (w ++ w'). split; [apply writes_bind; [exact Hw|now intros _]|].
  intros c rest E. rewrite <- app_assoc in E. rewrite (bind_Ok _ _ _ _ _ (Hg _ _ E)).
  rewrite (Hg' (c_past c (w' ++ rest) (zlen w)) rest eq_refl). unfold c_past. cbn [c_at c_classes c_objects c_count].
  rewrite zlen_app, Z.add_assoc. reflexivity.
Qed.
Lemma gp_last {X V U} (wm : W X) (gm : G V) (gk : V -> G U) v u :
  gpure wm gm v -> gk v = ret u -> gpure wm (bind gm gk) u.
Proof.
  intros (w & Hw & Hg) E. exists w. split; [exact Hw|]. intros c rest T. rewrite (bind_Ok _ _ _ _ _ (Hg _ _ T)), E. reflexivity.
Qed.
Lemma gp_gate {X V U} (wm : W X) (gm : G U) (gk : U -> G V) u v :
  gm = ret u -> gpure wm (gk u) v -> gpure wm (bind gm gk) v.
Proof. intros -> H. exact H. Qed.
Lemma gp_unit {X V} (wm : W X) (gm : G V) v : gpure wm gm v -> gpure (wm ;;; ret tt) gm v.
Proof.
  intros (w & Hw & Hg). exists w. split; [|exact Hg]. intros s. destruct (Hw s) as [x E]. exists tt. now rewrite (bind_Ok _ _ _ _ _ E).
Qed.

Lemma gp_text s : str_ok s -> gpure (write_string s) text s.
Proof.
  intros [L _]. exists (str_bytes s). split; [apply writes_string; red; pose proof (zlen_nonneg s); lia|].
  intros c rest. unfold str_bytes, text. pose proof (zlen_nonneg s) as Z0.
  destruct (Z.ltb_spec (zlen s) 255) as [H|H].
  - change (zlen s :: s) with ([zlen s] ++ s). rewrite <- (be_1 (zlen s)) by (red; lia). intros E. assert (N : gpure (write_int 1 (zlen s)) (num false 1) (zlen s)) by (apply gp_num; [lia|red; cbn; lia]).
    destruct N as (w & Hw & Hg). rewrite (writes_det _ _ _ Hw (writes_int 1 (zlen s))) in Hg. clear w Hw.
    rewrite <- app_assoc in E. rewrite (bind_Ok _ _ _ _ _ (Hg c _ E)). destruct (Z.eqb_spec (zlen s) 255); [lia|].
    unfold bind, ret. rewrite (take_ok s rest) by reflexivity. unfold c_past. cbn [c_at c_classes c_objects c_count].
    rewrite zlen_app, Z.add_assoc. reflexivity.
  - change (255 :: be 4 (zlen s) ++ s) with ([255] ++ be 4 (zlen s) ++ s). rewrite <- (be_1 255) by (red; lia). intros E. assert (N1 : gpure (write_int 1 255) (num false 1) 255) by (apply gp_num; [lia|red; cbn; lia]).
    assert (N2 : gpure (write_int 4 (zlen s)) word (zlen s)) by (apply gp_num; [lia|red; cbn; lia]).
    destruct N1 as (w & Hw & Hg). rewrite (writes_det _ _ _ Hw (writes_int 1 255)) in Hg. clear w Hw.
    destruct N2 as (w & Hw & Hg2). rewrite (writes_det _ _ _ Hw (writes_int 4 (zlen s))) in Hg2. clear w Hw.
    rewrite <- !app_assoc in E. rewrite (bind_Ok _ _ _ _ _ (Hg c _ E)). change (255 =? 255) with true. cbv iota.
    rewrite (bind_Ok _ _ _ _ _ (Hg2 (c_past c (be 4 (zlen s) ++ s ++ rest) (zlen (be 1 255))) _ eq_refl)).
    rewrite (take_ok s rest) by reflexivity. unfold c_past. cbn [c_at c_classes c_objects c_count].
    rewrite !zlen_app, !Z.add_assoc. reflexivity.
Qed.

Lemma gp_obj o : obj_ok o -> gpure (obj_marshal o) tobject (v_obj (obj_seen o)).
Proof.
  intros [Hi Hb]. destruct o as [i b]. unfold obj_marshal, tobject, obj_seen, v_obj. cbn [o_id o_bits] in *.
  eapply gp_seq; [apply (gp_num false 2 1); [lia|red; cbn; lia]|].
  apply (gp_gate _ _ _ tt); [reflexivity|]. change kIsReferenced with 16. change kIsOnHeap with 16777216.
  destruct (Z.eqb_spec (Z.land b 16) 0) as [E|E]; cbn [negb].
  - eapply gp_seq; [apply (gp_num false 4 i); [lia|exact Hi]|].
    eapply gp_last; [apply (gp_num false 4 b); [lia|exact Hb]|].
    cbv beta. rewrite E. reflexivity.
  - assert (Hl : is_u32 (Z.land i 16777215)).
    { red in Hi |- *. change 16777215 with (Z.ones 24). rewrite Z.land_ones by lia.
      pose proof (Z.mod_pos_bound i (2 ^ 24) ltac:(lia)). lia. }
    eapply gp_seq; [apply (gp_num false 4 (Z.land i 16777215)); [lia|exact Hl]|].
    eapply gp_seq; [apply (gp_num false 4 b); [lia|exact Hb]|]. cbv beta.
    destruct (Z.eqb_spec (Z.land b 16) 0) as [|_]; [contradiction|].
    assert (A : forall (V : Type) (k : unit -> G V) u, gpure (write_u16 0) (bind (num false 2) (fun _ => k tt)) u ->
      gpure (write_u16 0) (bind (bind (num false 2) (fun _ => ret tt)) k) u).
    { intros V k u (w & Hw & Hg). exists w. split; [exact Hw|]. intros c rest T. rewrite <- (Hg c rest T). apply bind_assoc. }
    apply A. eapply gp_last; [apply (gp_num false 2 0); [lia|red; cbn; lia]|]. reflexivity.
Qed.

Lemma gp_nums (sg : bool) n (l : list Z) : (0 < n)%nat -> Forall (fun z => if sg then in_s n z else in_u n z) l ->
  gpure (iterM (write_int n) l) (repeatM (length l) (num sg n)) l.
Proof.
  intros N. induction 1 as [|z l Hz Hl IH]; [apply gp_ret|]. cbn [iterM repeatM length].
  eapply gp_seq; [now apply gp_num|]. eapply gp_last; [exact IH|reflexivity].
Qed.
Lemma gp_nil obj : gpure write_object_nil (pointer obj) DNull.
Proof.
  destruct (gp_num false 4 0 ltac:(lia) ltac:(red; cbn; lia)) as (w & Hw & Hg). exists w. split; [exact Hw|].
  intros c rest T. unfold pointer, whereat, gets, bind at 1. unfold word. rewrite (bind_Ok _ _ _ _ _ (Hg c rest T)). reflexivity.
Qed.
Lemma gp_wext {X V} (wm wm' : W X) (gm : G V) v : (forall s, wm' s = wm s) -> gpure wm gm v -> gpure wm' gm v.
Proof. intros E (w & Hw & Hg). exists w. split; [|exact Hg]. intros s. rewrite E. apply Hw. Qed.

(** The tables of baskets: flag, the entries, zeros. *)
Lemma iterM_app {S A} (f : A -> M S unit) l m s : iterM f (l ++ m) s = (iterM f l ;;; iterM f m) s.
Proof.
  revert s. induction l as [|a l IH]; intros s; [reflexivity|]. cbn [app iterM]. unfold bind in *.
  destruct (f a s) as [[? s1]| | | |]; auto.
Qed.
Lemma gp_padded obj env count (sg : bool) n (v : list Z) k m :
  (0 < n)%nat -> Forall (fun z => if sg then in_s n z else in_u n z) v -> zlen v = k -> k <= m ->
  field env count = Some (DNum m) ->
  gpure (write_padded (write_int n) v k m) (member obj env (LArray sg n count)) (DNums (padded m v)).
Proof.
  intros N F L M E. pose proof (zlen_nonneg v) as Z0. unfold write_padded.
  replace ((k <? 0) || (zlen v <? k)) with false by (symmetry; lia).
  assert (Fn : firstn (Z.to_nat k) v = v) by (rewrite firstn_all2; [reflexivity|rewrite zlen_def in L; lia]).
  rewrite Fn. cbn [member]. eapply gp_seq; [apply (gp_num false 1 1); [lia|red; cbn; lia]|].
  change (1 =? 0) with false. change (1 =? 1) with true. cbv beta iota. rewrite E.
  apply (gp_gate _ _ _ tt); [reflexivity|].
  assert (PL : padded m v = v ++ repeat 0 (Z.to_nat (m - k))).
  { unfold padded. do 2 f_equal. rewrite zlen_def in L. lia. }
  rewrite PL. assert (Z.to_nat m = length (v ++ repeat 0 (Z.to_nat (m - k)))) as ->.
  { rewrite app_length, repeat_length. rewrite zlen_def in L. lia. }
  eapply gp_last; [|reflexivity]. eapply gp_wext; [intros s; symmetry; apply iterM_app|].
  apply gp_nums; [exact N|]. apply Forall_app. split; [exact F|]. apply Forall_forall. intros z Hz. apply repeat_spec in Hz. subst z.
  destruct sg; red; pose proof (pow256_pos n); [|lia]. pose proof (pow256_half n N). lia.
Qed.

(** ** Writers that use the tables *)

(** The reader has met the classes the writer has named, and remembers nothing beyond
    the present position. *)
Definition cinv (s : wbuf) (c : cursor) : Prop :=
  c_at c = wpos s /\
  (forall k v, In (k, v) (c_objects c) -> k <= c_at c) /\
  (forall cl rv, alookup beqb cl (wrefs s) = Some rv ->
     exists k, rv = Z.lor k kClassMask /\ 0 <= k < 2 ^ 30 /\ k <= c_at c /\ alookup Z.eqb k (c_classes c) = Some cl).
(** The objects [B] are known to both, under the same position. *)
Definition knows (B : list (Z * dval)) (s : wbuf) (c : cursor) : Prop :=
  forall a v, In (a, v) B ->
    exists q, alookup Z.eqb a (wrefp s) = Some q /\ 0 <= q < 2 ^ 30 /\ alookup Z.eqb q (c_objects c) = Some v.
Definition ext (c c' : cursor) : Prop :=
  exists e, c_objects c' = e ++ c_objects c /\ forall k v, In (k, v) e -> c_at c + 2 <= k.

(** [B]: objects known before, with what the reader has for them; [A]: objects that
    become known; [n], [n']: the number of objects met before and after. *)
Definition gsim (P : wbuf -> Prop) (n n' : nat) (B A : list (Z * dval)) {X V} (wm : W X) (gm : G V) (v : V) : Prop :=
  forall s, P s -> 0 <= woff s ->
    (forall a, In a (map fst A) -> alookup Z.eqb a (wrefp s) = None) ->
    (forall a, In a (map fst B) -> alookup Z.eqb a (wrefp s) <> None) ->
  exists x s' w,
    wm s = Ok (x, s') /\ wp s' = wp s ++ w /\ woff s' = woff s /\
    (forall a, In a (map fst A) -> alookup Z.eqb a (wrefp s') <> None) /\
    (forall a, ~ In a (map fst A) -> alookup Z.eqb a (wrefp s') = alookup Z.eqb a (wrefp s)) /\
    (wpos s' < 2 ^ 30 ->
     forall c rest, cinv s c -> knows B s c -> c_count c = n -> c_todo c = w ++ rest ->
       exists c', gm c = Ok (v, c') /\ c_todo c' = rest /\ c_count c' = n' /\
         cinv s' c' /\ knows A s' c' /\ ext c c').
Notation gs := (gsim nonempty).

Lemma ext_refl c c' : c_objects c' = c_objects c -> ext c c'.
Proof. intros E. exists []. split; [exact E|]. intros k v []. Qed.
Lemma knows_nil s c : knows [] s c.
Proof. intros a v []. Qed.
Lemma knows_incl B B' s c : incl B' B -> knows B s c -> knows B' s c.
Proof. intros I K a v H. apply K, I, H. Qed.
Lemma knows_app B B' s c : knows B s c -> knows B' s c -> knows (B ++ B') s c.
Proof. intros K K' a v H. apply in_app_iff in H as [H|H]; [now apply K|now apply K']. Qed.
Lemma alookup_in {V} k (l : list (Z * V)) v : alookup Z.eqb k l = Some v -> In (k, v) l.
Proof.
  induction l as [|[k' v'] l IH]; [discriminate|]. cbn [alookup]. destruct (Z.eqb_spec k k') as [->|].
  - intros [= ->]. now left.
  - intros H. right. now apply IH.
Qed.
Lemma alookup_app_ne {V} k (e l : list (Z * V)) : (forall v, ~ In (k, v) e) -> alookup Z.eqb k (e ++ l) = alookup Z.eqb k l.
Proof.
  induction e as [|[k' v'] e IH]; intros H; [reflexivity|]. cbn [app alookup]. destruct (Z.eqb_spec k k') as [->|].
  - exfalso. apply (H v'). now left.
  - apply IH. intros v F. apply (H v). now right.
Qed.
(** What was known stays known. *)
Lemma knows_frame B s s' c c' :
  cinv s c -> knows B s c -> ext c c' ->
  (forall a, In a (map fst B) -> alookup Z.eqb a (wrefp s') = alookup Z.eqb a (wrefp s)) -> knows B s' c'.
Proof.
  intros (C1 & C2 & _) K (e & Ee & Le) W a v H. destruct (K a v H) as (q & Q1 & Q2 & Q3). exists q.
  split; [rewrite W; [exact Q1|]; now apply (in_map fst) in H|]. split; [exact Q2|]. rewrite Ee, alookup_app_ne; [exact Q3|].
  intros u F. specialize (Le _ _ F). apply alookup_in in Q3. specialize (C2 _ _ Q3). lia.
Qed.

Lemma gs_pure {X V} P n (wm : W X) (gm : G V) v : gpure wm gm v -> gsim P n n [] [] wm gm v.
Proof.
  intros (w & Hw & Hg) s _ Ho _ _. destruct (Hw s) as [x Hx]. exists x, (w_app s w), w.
  do 3 (split; [auto|]). split; [intros a []|]. split; [reflexivity|].
  intros _ c rest (C1 & C2 & C3) _ Cn T. exists (c_past c rest (zlen w)). pose proof (zlen_nonneg w).
  split; [now apply Hg|]. split; [reflexivity|]. split; [exact Cn|]. split; [|split; [apply knows_nil|now apply ext_refl]].
  split; [|split]; cbn [c_at c_objects c_classes c_past].
  - rewrite C1. unfold wpos. cbn [wp woff w_app w_set_p]. rewrite zlen_app. lia.
  - intros k u I. specialize (C2 _ _ I). lia.
  - intros cl rv E. destruct (C3 cl rv E) as (k & K1 & K2 & K3 & K4). exists k. repeat split; auto; lia.
Qed.

Lemma gs_seq {X Y V U} n n1 n2 B1 A1 B2 A2 B (wm : W X) (wk : W Y) (gm : G V) (gk : V -> G U) v u :
  gs n n1 B1 A1 wm gm v -> gs n1 n2 B2 A2 wk (gk v) u ->
  incl B1 B -> incl B2 (A1 ++ B) -> (forall a, In a (map fst A1) -> ~ In a (map fst A2)) ->
  gs n n2 B (A1 ++ A2) (wm ;;; wk) (bind gm gk) u.
Proof.
  intros H1 H2 I1 I2 D s Hne Ho HA HB.
  assert (AA : forall a, In a (map fst (A1 ++ A2)) <-> In a (map fst A1) \/ In a (map fst A2)).
  { intros a. rewrite map_app, in_app_iff. tauto. }
  destruct (H1 s Hne Ho) as (x & s1 & w1 & E1 & P1 & O1 & R1 & N1 & G1).
  { intros a Ha. apply HA, AA. now left. }
  { intros a Ha. apply HB. revert a Ha. apply incl_map. exact I1. }
  pose proof (wpos_app _ _ _ P1 O1) as L1. pose proof (zlen_nonneg w1).
  assert (BU : forall a, In a (map fst B) -> alookup Z.eqb a (wrefp s1) = alookup Z.eqb a (wrefp s)).
  { intros a Ha. apply N1. intros F. apply (HB a Ha). apply HA, AA. now left. }
  destruct (H2 s1) as (y & s2 & w2 & E2 & P2 & O2 & R2 & N2 & G2).
  { eapply nonempty_app; eauto. } { lia. }
  { intros a Ha. rewrite N1; [apply HA, AA; now right|]. intros F. now apply (D a F). }
  { intros a Ha. apply in_map_iff in Ha as ([a' v'] & <- & Ha). apply I2, in_app_iff in Ha as [Ha|Ha]; apply (in_map fst) in Ha; cbn [fst] in *.
    - now apply R1.
    - rewrite BU by exact Ha. now apply HB. }
  pose proof (wpos_app _ _ _ P2 O2) as L2. pose proof (zlen_nonneg w2).
  exists y, s2, (w1 ++ w2). split; [now rewrite (bind_Ok _ _ _ _ _ E1)|].
  split; [now rewrite P2, P1, app_assoc|]. split; [lia|]. split; [|split].
  - intros a Ha. apply AA in Ha as [Ha|Ha]; [|now apply R2]. rewrite N2; [now apply R1|]. now apply D.
  - intros a Ha. rewrite N2, N1; [reflexivity| |]; intros F; apply Ha, AA; auto.
  - intros Hlt c rest Ci K Cn T. rewrite <- app_assoc in T.
    destruct (G1 ltac:(lia) c _ Ci (knows_incl _ _ _ _ I1 K) Cn T) as (c1 & Q1 & T1 & M1 & Ci1 & K1 & X1).
    assert (KB : knows B s1 c1) by (eapply knows_frame; [exact Ci|exact K|exact X1|exact BU]).
    destruct (G2 Hlt c1 rest Ci1 (knows_incl _ _ _ _ I2 (knows_app _ _ _ _ K1 KB)) M1 T1) as (c2 & Q2 & T2 & M2 & Ci2 & K2 & X2).
    exists c2. split; [now rewrite (bind_Ok _ _ _ _ _ Q1)|]. do 2 (split; [assumption|]). split; [exact Ci2|].
    split.
    + apply knows_app; [|exact K2]. eapply knows_frame; [exact Ci1|exact K1|exact X2|]. intros a Ha. apply N2. now apply D.
    + destruct X1 as (e1 & Ee1 & Le1), X2 as (e2 & Ee2 & Le2). exists (e2 ++ e1). split; [now rewrite Ee2, Ee1, app_assoc|].
      intros k z I. apply in_app_iff in I as [I|I]; [|now apply (Le1 k z)]. specialize (Le2 k z I).
      destruct Ci as (Ca & _), Ci1 as (Ca1 & _). lia.
Qed.

(** Shapes of the sequence rule. *)
Lemma gs_seq0 {X Y V U} n n1 n2 B A (wm : W X) (wk : W Y) (gm : G V) (gk : V -> G U) v u :
  gs n n1 [] [] wm gm v -> gs n1 n2 B A wk (gk v) u -> gs n n2 B A (wm ;;; wk) (bind gm gk) u.
Proof.
  intros H1 H2. change A with ([] ++ A). eapply gs_seq; [exact H1|exact H2|intros x []|intros x Hx; exact Hx|intros a []].
Qed.
Lemma gs_last {X V U} P n n' B A (wm : W X) (gm : G V) (gk : V -> G U) v u :
  gsim P n n' B A wm gm v -> gk v = ret u -> gsim P n n' B A wm (bind gm gk) u.
Proof.
  intros H E s Hp Ho HA HB. destruct (H s Hp Ho HA HB) as (x & s' & w & E1 & E2 & E3 & E4 & E5 & R).
  exists x, s', w. do 5 (split; [assumption|]). intros L c rest Ci K Cn T.
  destruct (R L c rest Ci K Cn T) as (c' & Q & R'). exists c'. split; [|exact R']. now rewrite (bind_Ok _ _ _ _ _ Q), E.
Qed.
Lemma gs_gate {X V U} P n n' B A (wm : W X) (gm : G U) (gk : U -> G V) u v :
  gm = ret u -> gsim P n n' B A wm (gk u) v -> gsim P n n' B A wm (bind gm gk) v.
Proof. intros -> H. exact H. Qed.
Lemma gs_wext {X Y V} (P : wbuf -> Prop) n n' B A (wm : W X) (wm' : W Y) (gm : G V) v :
  (forall s, P s -> exists f, wm' s = match wm s with Ok (x, s') => Ok (f x, s') | Err e => Err e | Panic => Panic | Unmodelled => Unmodelled | OutOfFuel => OutOfFuel end) ->
  gsim P n n' B A wm gm v -> gsim P n n' B A wm' gm v.
Proof.
  intros E H s Hp Ho HA HB. destruct (E s Hp) as (f & Ef). destruct (H s Hp Ho HA HB) as (x & s' & w & E1 & R).
  exists (f x), s', w. split; [now rewrite Ef, E1|exact R].
Qed.
Lemma gs_lm1 {X V} n n' B A (wm : W X) (gm : G V) v : gs n n' B A wm gm v -> gs n n' B A (len_minus_1 ;;; wm) gm v.
Proof.
  apply gs_wext. intros s Hp. exists (fun x => x). rewrite (bind_Ok _ _ _ _ _ (len_minus_1_ok s Hp)).
  destruct (wm s) as [[? ?]| | | |]; reflexivity.
Qed.
(** A writer that also returns how much it wrote. *)
Lemma gs_counted {X V} n n' B A (wm : W X) (gm : G V) v :
  gs n n' B A wm gm v -> gs n n' B A (beg <- gets wpos ;; wm ;;; e <- gets wpos ;; ret (e - beg)) gm v.
Proof.
  intros H s Hp Ho HA HB. destruct (H s Hp Ho HA HB) as (x & s' & w & E1 & R).
  exists (wpos s' - wpos s), s', w. split; [|exact R]. unfold gets at 1, bind at 1. rewrite (bind_Ok _ _ _ _ _ E1). reflexivity.
Qed.
Lemma gs_unit {X V} P n n' B A (wm : W X) (gm : G V) v : gsim P n n' B A wm gm v -> gsim P n n' B A (wm ;;; ret tt) gm v.
Proof.
  apply gs_wext. intros s _. exists (fun _ => tt). unfold bind. destruct (wm s) as [[? ?]| | | |]; reflexivity.
Qed.

Lemma lor_count k : 0 <= k < 2 ^ 30 -> Z.lor k kByteCountMask = 2 ^ 30 + k.
Proof.
  intros H. change kByteCountMask with (2 ^ 30). pose proof (land_pow2_small k 30 ltac:(lia) H) as E.
  rewrite <- Z.lxor_lor by exact E. rewrite Z.add_comm. symmetry. now apply Z.add_nocarry_lxor.
Qed.
Lemma num_ok (sg : bool) n z c rest : (0 < n)%nat -> (if sg then in_s n z else in_u n z) -> c_todo c = be n z ++ rest ->
  num sg n c = Ok (z, c_past c rest (Z.of_nat n)).
Proof.
  intros N R T. destruct (gp_num sg n z N R) as (w & Hw & Hg). rewrite (writes_det _ _ _ Hw (writes_int n z)) in Hg.
  rewrite (Hg c rest T), zlen_be. reflexivity.
Qed.

Lemma word_ok z c rest : 0 <= z < 2 ^ 32 -> c_todo c = be 4 z ++ rest -> word c = Ok (z, c_past c rest 4).
Proof. intros R T. apply (num_ok false 4 z c rest); [lia|exact R|exact T]. Qed.

(** An object in place: count, version, members. *)
Lemma gs_head {X V} n n' B A vers (body : W X) (gm : G (list V)) l (f : list V -> dval) :
  is_i16 vers -> gs n n' B A body gm l -> forall P,
  gsim P n n' B A (with_header vers body)
    (p <- whereat ;; w <- word ;; v <- num true 2 ;; check (v =? vers) ;;;
     l <- gm ;; e <- whereat ;; check (w =? 2 ^ 30 + (e - p - 4)) ;;; ret (f l)) (f l).
Proof.
  intros Hv Hb P s _ Ho HA HB.
  set (s1 := w_app s (be 4 0 ++ be 2 vers)).
  assert (Hs1 : wpos s1 = wpos s + 6) by (unfold wpos, s1; cbn [wp woff w_app w_set_p]; rewrite !zlen_app, !zlen_be; lia).
  destruct (Hb s1) as (x & s2 & w & E & Pp & O & R & N & Q); auto.
  { unfold nonempty, s1, w_app, w_set_p. cbn [wp be app]. apply app_nonempty. }
  pose proof (zlen_nonneg w) as Hw0.
  assert (L2 : wpos s2 = wpos s + 6 + zlen w) by (rewrite (wpos_app s1 s2 w); auto; lia).
  set (f' := be 4 (Z.lor (zlen w + 2) kByteCountMask) ++ be 2 vers ++ w).
  assert (Hfl : zlen f' = 6 + zlen w) by (unfold f'; rewrite !zlen_app, !zlen_be; lia).
  set (s3 := w_set_p s2 (wp s ++ f')).
  assert (L3 : wpos s3 = wpos s2).
  { unfold wpos, s3. cbn [wp woff w_set_p]. unfold wpos in L2. rewrite zlen_app, Hfl.
    rewrite O in *. unfold s1 in *. cbn [woff w_app w_set_p] in *. lia. }
  exists (zlen w + 2 + 4), s3, f'.
  assert (Hrun : with_header vers body s = Ok (zlen w + 2 + 4, s3)).
  { unfold with_header, write_header, gets.
    unfold bind at 1. unfold bind at 1. unfold write_u32, write_u16, write_int, put.
    unfold bind at 1. unfold bind at 1. unfold ret. rewrite w_app_app. fold s1.
    rewrite (bind_Ok _ _ _ _ _ E). unfold set_header, gets, bind at 1, bind at 1.
    unfold write_in_place.
    assert (Eo : woff s2 = woff s) by (rewrite O; reflexivity).
    rewrite Eo. replace (wpos s - woff s) with (zlen (wp s)) by (unfold wpos; lia).
    rewrite Pp. unfold s1 at 1. cbn [wp w_app w_set_p]. rewrite !zlen_app, !zlen_be.
    pose proof (zlen_nonneg (wp s)).
    replace (_ && _) with true by (symmetry; lia).
    unfold ret. replace (wpos s2 - wpos s - 4) with (zlen w + 2) by lia.
    do 3 f_equal. unfold s1. cbn [wp w_app w_set_p]. unfold f'.
    rewrite <- !app_assoc. rewrite patch_mid by now rewrite !zlen_be. reflexivity. }
  split; [exact Hrun|]. split; [reflexivity|]. split; [exact O|]. split; [exact R|]. split; [exact N|].
  intros Hlt c rest (C1 & C2 & C3) K Cn T. rewrite L3 in Hlt.
  pose proof (zlen_nonneg (wp s)) as Z0. assert (W0 : 0 <= wpos s) by (unfold wpos; lia).
  unfold f' in T. rewrite lor_count in T by lia. rewrite <- !app_assoc in T.
  set (c1 := c_past c (be 2 vers ++ w ++ rest) 4). set (c2 := c_past c1 (w ++ rest) 2).
  assert (Ci2 : cinv s1 c2).
  { split; [|split]; unfold c2, c1, c_past; cbn [c_at c_objects c_classes].
    - lia.
    - intros k v I. specialize (C2 k v I). lia.
    - intros cl rv F. destruct (C3 cl rv F) as (k & K1 & K2 & K3 & K4). exists k. repeat split; auto; lia. }
  destruct (Q ltac:(lia) c2 rest Ci2) as (c3 & Q1 & Q2 & Q3 & Q4 & Q5 & Q6); [exact K|exact Cn|reflexivity|].
  exists c3. split.
  - unfold whereat, gets. unfold bind at 1.
    rewrite (bind_Ok _ _ _ _ _ (word_ok (2 ^ 30 + (zlen w + 2)) c _ ltac:(lia) T)). fold c1.
    rewrite (bind_Ok _ _ _ _ _ (num_ok true 2 vers c1 (w ++ rest) ltac:(lia) Hv eq_refl)). fold c2.
    rewrite Z.eqb_refl. unfold check at 1. unfold bind at 1, ret at 1.
    rewrite (bind_Ok _ _ _ _ _ Q1). unfold bind at 1.
    destruct Q4 as (Q41 & _). rewrite Q41.
    replace (_ =? _) with true by (symmetry; lia). reflexivity.
  - split; [exact Q2|]. split; [exact Q3|]. split; [|split; [exact Q5|]].
    + destruct Q4 as (D1 & D2 & D3). split; [lia|]. split; [exact D2|exact D3].
    + destruct Q6 as (e & Ee & Le). exists e. split; [exact Ee|]. intros k v I. specialize (Le k v I).
      unfold c2, c1, c_past in Le. cbn [c_at] in Le. lia.
Qed.

Lemma before_nul_ok cl rest : forallb (fun b => negb (b =? 0)) cl = true -> before_nul (cl ++ 0 :: rest) = Some cl.
Proof.
  induction cl as [|x cl IH]; [reflexivity|]. cbn [forallb app before_nul]. intros H. apply andb_true_iff in H as [H1 H2].
  apply negb_true_iff in H1. rewrite H1, IH by exact H2. reflexivity.
Qed.

(** An object behind a pointer, met for the first time. *)
Lemma gs_new (obj : bytes -> G dval) n n' B A class addr (marsh : W Z) v :
  cname_ok class -> ~ In addr (map fst A) -> ~ In addr (map fst B) ->
  gs (S n) n' B A marsh (obj class) v ->
  gs n n' B ((addr, DPtr n v) :: A) (write_object_any class addr marsh) (pointer obj) (DPtr n v).
Proof.
  intros Hc HnA HnB Hm s Hne Ho HAn HBs.
  pose proof (zlen_nonneg (wp s)) as Hlen.
  set (s0 := w_app s (be 4 0)).
  assert (Hne0 : nonempty s0) by (unfold nonempty, s0; cbn [wp w_app w_set_p be]; apply app_nonempty).
  assert (Hp0 : wpos s0 = wpos s + 4) by (unfold wpos, s0; cbn [wp woff w_app w_set_p]; rewrite zlen_app, zlen_be; lia).
  assert (Haddr : alookup Z.eqb addr (wrefp s) = None) by (apply HAn; now left).
  assert (Main : forall (tw : bytes) (s1 s2 : wbuf) (w : bytes) (refp : list (Z*Z)),
    4 <= zlen tw ->
    wp s1 = wp s ++ be 4 0 ++ tw -> woff s1 = woff s ->
    wp s2 = wp s1 ++ w -> woff s2 = woff s1 ->
    write_class (wpos s) class addr marsh s0
      = Ok (Z.lor (zlen tw + zlen w) kByteCountMask, mkW (wp s2) (woff s2) refp (wrefs s2)) ->
    write_object_any class addr marsh s
      = Ok (4 + zlen tw + zlen w,
            mkW (wp s ++ be 4 (Z.lor (zlen tw + zlen w) kByteCountMask) ++ tw ++ w) (woff s) refp (wrefs s2))).
  { intros tw s1 s2 w refp Htw P1 O1 P2 O2 Hw. pose proof (zlen_nonneg w).
    unfold write_object_any, gets, bind at 1.
    rewrite (bind_Ok _ _ _ _ _ (len_minus_1_ok s Hne)).
    unfold write_i32, write_int, put. unfold bind at 1. fold s0.
    rewrite (bind_Ok _ _ _ _ _ Hw).
    unfold bind at 1. unfold write_in_place. cbn [wp woff].
    assert (E2 : woff s2 = woff s) by lia. rewrite E2.
    assert (Ewp : wp s2 = wp s ++ be 4 0 ++ tw ++ w) by (rewrite P2, P1, <- !app_assoc; reflexivity).
    rewrite Ewp. replace (wpos s - woff s) with (zlen (wp s)) by (unfold wpos; lia).
    rewrite !zlen_app, !zlen_be.
    replace (_ && _) with true by (symmetry; lia).
    rewrite patch_mid by now rewrite !zlen_be.
    unfold bind, ret. cbn [wp woff w_set_p wrefp wrefs].
    assert (Eb : be 4 (to_u32 (Z.lor (zlen tw + zlen w) kByteCountMask)) = be 4 (Z.lor (zlen tw + zlen w) kByteCountMask))
      by apply (be_mod 4).
    rewrite Eb. unfold w_set_p, wpos. cbn [wp woff]. rewrite !zlen_app, zlen_be.
    do 2 f_equal. lia. }
  unfold write_class in Main.
  destruct (alookup beqb class (wrefs s)) as [rv|] eqn:Ecl.
  - (* class already named *)
    set (tw := be 4 (Z.lor (to_u32 rv) kClassMask)).
    set (s1 := w_app s0 tw).
    assert (Hp1 : wpos s1 = wpos s + 8) by (unfold wpos, s1, s0, tw; cbn [wp woff w_app w_set_p]; rewrite !zlen_app, !zlen_be; lia).
    destruct (Hm s1) as (x & s2 & w & E & P2 & O2 & R & N & Q).
    { unfold nonempty, s1, tw; cbn [wp w_app w_set_p be]; apply app_nonempty. }
    { exact Ho. }
    { intros a Ha. apply HAn. now right. }
    { exact HBs. }
    pose proof (zlen_nonneg w) as Hw0.
    assert (Hp2 : wpos s2 = wpos s1 + zlen w) by now apply wpos_app.
    assert (Htw : zlen tw = 4) by (unfold tw; now rewrite zlen_be).
    specialize (Main tw s1 s2 w ((addr, wpos s + kMapOffset) :: wrefp s2)).
    set (sf := mkW (wp s ++ be 4 (Z.lor (zlen tw + zlen w) kByteCountMask) ++ tw ++ w) (woff s)
                   ((addr, wpos s + kMapOffset) :: wrefp s2) (wrefs s2)) in *.
    assert (Hf : wpos sf = wpos s2).
    { unfold sf. unfold wpos at 1. cbn [wp woff]. rewrite !zlen_app, zlen_be. unfold wpos in *. lia. }
    exists (4 + zlen tw + zlen w), sf, (be 4 (Z.lor (zlen tw + zlen w) kByteCountMask) ++ tw ++ w).
    split; [|split; [|split; [|split; [|split]]]].
    + apply Main; auto; [lia|unfold s1, s0; cbn [wp w_app w_set_p]; now rewrite <- app_assoc|].
      rewrite (bind_Ok _ _ _ _ _ (len_minus_1_ok s0 Hne0)).
      unfold gets, bind at 1, bind at 1.
      change (wrefp s0) with (wrefp s). change (wrefs s0) with (wrefs s). rewrite Haddr, Ecl.
      unfold write_u32, write_int, put, bind at 1. fold tw. fold s1.
      rewrite (bind_Ok _ _ _ _ _ E). unfold modify, bind, gets, ret. cbn [wp woff].
      apply Ok_eq; [|reflexivity]. f_equal. change (wpos s2 - wpos s0 = zlen tw + zlen w). lia.
    + reflexivity.
    + reflexivity.
    + cbn [map fst]. intros a [<-|Ha]; cbn [wrefp sf].
      * rewrite alookup_cons_eq. discriminate.
      * rewrite alookup_cons_ne by (intros ->; contradiction). now apply R.
    + cbn [map fst]. intros a Ha. cbn [wrefp sf]. rewrite alookup_cons_ne by (intros ->; apply Ha; now left).
      apply N. intros F; apply Ha; now right.
    + intros Hlt c rest (C1 & C2 & C3) K Cn T.
      destruct (C3 class rv Ecl) as (k & Ev & Hk1 & Hk2 & Hk3).
      assert (W0 : 0 <= wpos s) by (unfold wpos; lia).
      assert (Etag : Z.lor (to_u32 rv) kClassMask = k + 2 ^ 31).
      { rewrite Ev, (lor_class k) by lia. rewrite to_u32_id by (red; lia).
        rewrite <- (lor_class k) by lia. rewrite <- Z.lor_assoc, Z.lor_diag. reflexivity. }
      unfold tw in T. rewrite Etag, zlen_be, lor_count in T by lia. rewrite <- !app_assoc in T.
      set (c1 := c_past c (be 4 (k + 2 ^ 31) ++ w ++ rest) 4).
      set (c2 := c_past c1 (w ++ rest) 4).
      set (c3 := mkCur (c_todo c2) (c_at c2) (c_classes c2) (c_objects c2) (S (c_count c2))).
      assert (Ci3 : cinv s1 c3).
      { split; [|split]; unfold c3, c2, c1, c_past; cbn [c_at c_objects c_classes].
        - lia.
        - intros k' v' I. specialize (C2 k' v' I). lia.
        - intros cl rv' F. destruct (C3 cl rv' F) as (k' & K1 & K2 & K3 & K4). exists k'. repeat split; auto; lia. }
      destruct (Q ltac:(lia) c3 rest Ci3) as (c4 & Q1 & Q2 & Q3 & Q4 & Q5 & Q6); [exact K|unfold c3, c2, c1, c_past; cbn [c_count]; lia|reflexivity|].
      set (c5 := mkCur (c_todo c4) (c_at c4) (c_classes c4) ((c_at c + 2, DPtr n v) :: c_objects c4) (c_count c4)).
      assert (X : forall k' v', In (k', v') (c_objects c4) -> k' <> c_at c + 2).
      { intros k' v' I. destruct Q6 as (e & Ee & Le). rewrite Ee in I. apply in_app_iff in I as [I|I].
        - specialize (Le k' v' I). unfold c3, c2, c1, c_past in Le. cbn [c_at] in Le. lia.
        - unfold c3, c2, c1, c_past in I. cbn [c_objects] in I. specialize (C2 k' v' I). lia. }
      destruct Q4 as (D1 & D2 & D3).
      exists c5. split.
      * unfold pointer. unfold whereat, gets. unfold bind at 1.
        change (Z.of_nat 4) with 4 in T.
        rewrite (bind_Ok _ _ _ _ _ (word_ok (2 ^ 30 + (4 + zlen w)) c _ ltac:(lia) T)).
        destruct (Z.eqb_spec (2 ^ 30 + (4 + zlen w)) 0) as [|_]; [lia|].
        destruct (Z.ltb_spec (2 ^ 30 + (4 + zlen w)) (2 ^ 30)) as [|_]; [lia|].
        fold c1. rewrite (bind_Ok _ _ _ _ _ (word_ok (k + 2 ^ 31) c1 (w ++ rest) ltac:(lia) eq_refl)). fold c2.
        destruct (Z.ltb_spec (k + 2 ^ 31) (2 ^ 31)) as [|_]; [lia|].
        destruct (Z.eqb_spec (k + 2 ^ 31) (2 ^ 32 - 1)) as [|_]; [lia|].
        replace (k + 2 ^ 31 - 2 ^ 31) with k by lia.
        rewrite bind_assoc. unfold seen_class, bind at 1. change (c_classes c2) with (c_classes c). rewrite Hk3.
        rewrite bind_assoc. unfold meet_object at 1, bind at 1. fold c3.
        rewrite bind_assoc, (bind_Ok _ _ _ _ _ Q1).
        unfold keep_object, modify, bind, ret. replace (c_count c2) with n by (unfold c2, c1, c_past; cbn [c_count]; lia).
        fold c5. change (c_at c5) with (c_at c4). replace (_ =? _) with true by (symmetry; lia). reflexivity.
      * split; [exact Q2|]. split; [exact Q3|]. split; [|split].
        { split; [|split]; unfold c5; cbn [c_at c_objects c_classes].
          - lia.
          - intros k' v' [[= <- <-]|I]; [lia|now apply (D2 k' v')].
          - exact D3. }
        { intros a z [[= <- <-]|I].
          - exists (wpos s + 2). cbn [wrefp sf]. split; [apply alookup_cons_eq|]. split; [lia|].
            unfold c5; cbn [c_objects]. rewrite <- C1. apply alookup_cons_eq.
          - destruct (Q5 a z I) as (q & Z1 & Z2 & Z3). exists q. cbn [wrefp sf].
            rewrite alookup_cons_ne by (intros ->; apply HnA; now apply (in_map fst) in I). split; [exact Z1|]. split; [exact Z2|].
            unfold c5; cbn [c_objects]. rewrite alookup_cons_ne; [exact Z3|]. apply alookup_in in Z3. now apply X in Z3. }
        { destruct Q6 as (e & Ee & Le). exists ((c_at c + 2, DPtr n v) :: e). split; [unfold c5; cbn [c_objects app]; now rewrite Ee|].
          intros k' v' [[= <- <-]|I]; [lia|]. specialize (Le k' v' I). unfold c3, c2, c1, c_past in Le. cbn [c_at] in Le. lia. }
  - (* first object of its class *)
    set (tw := be 4 kNewClassTag ++ class ++ [0]).
    pose proof (zlen_nonneg class) as Hcl0.
    set (s1 := mkW (wp s0 ++ tw) (woff s) ((addr, wpos s + kMapOffset) :: wrefp s)
                   ((class, Z.lor (wpos s0 + kMapOffset) kClassMask) :: wrefs s)).
    assert (Htw : zlen tw = 5 + zlen class) by (unfold tw; rewrite !zlen_app, zlen_be; change (zlen [0]) with 1; lia).
    assert (Hp1 : wpos s1 = wpos s + 4 + zlen tw).
    { unfold wpos, s1, s0; cbn [wp woff w_app w_set_p]; rewrite !zlen_app, !zlen_be. lia. }
    destruct (Hm s1) as (x & s2 & w & E & P2 & O2 & R & N & Q).
    { unfold nonempty, s1, tw; cbn [wp be app]. apply app_nonempty. }
    { exact Ho. }
    { intros a Ha. cbn [wrefp s1]. rewrite alookup_cons_ne by (intros ->; contradiction).
      apply HAn. now right. }
    { intros b Hb. cbn [wrefp s1]. rewrite alookup_cons_ne by (intros ->; contradiction). now apply HBs. }
    pose proof (zlen_nonneg w) as Hw0.
    assert (Hp2 : wpos s2 = wpos s1 + zlen w) by now apply wpos_app.
    specialize (Main tw s1 s2 w (wrefp s2)).
    set (sf := mkW (wp s ++ be 4 (Z.lor (zlen tw + zlen w) kByteCountMask) ++ tw ++ w) (woff s)
                   (wrefp s2) (wrefs s2)) in *.
    assert (Hf : wpos sf = wpos s2).
    { unfold sf. unfold wpos at 1. cbn [wp woff]. rewrite !zlen_app, zlen_be. unfold wpos in *. lia. }
    assert (Eaddr : alookup Z.eqb addr (wrefp s2) = Some (wpos s + 2)).
    { rewrite N by exact HnA. cbn [wrefp s1]. apply alookup_cons_eq. }
    exists (4 + zlen tw + zlen w), sf, (be 4 (Z.lor (zlen tw + zlen w) kByteCountMask) ++ tw ++ w).
    split; [|split; [|split; [|split; [|split]]]].
    + apply Main; auto; [lia|unfold s1, s0; cbn [wp w_app w_set_p]; now rewrite <- app_assoc|].
      rewrite (bind_Ok _ _ _ _ _ (len_minus_1_ok s0 Hne0)).
      unfold gets, bind at 1, bind at 1.
      change (wrefp s0) with (wrefp s). change (wrefs s0) with (wrefs s). rewrite Haddr, Ecl.
      unfold write_u32, write_int, put, bind at 1.
      destruct (writes_cstring class (w_app s0 (be 4 kNewClassTag))) as [[] Hcs].
      rewrite (bind_Ok _ _ _ _ _ Hcs). rewrite w_app_app. fold tw.
      unfold modify, bind at 1. cbn [wp woff wrefp wrefs w_app w_set_p].
      change (mkW (wp s0 ++ tw) (woff s0) ((addr, wpos s + kMapOffset) :: wrefp s0)
                ((class, Z.lor (wpos s0 + kMapOffset) kClassMask) :: wrefs s0)) with s1.
      rewrite (bind_Ok _ _ _ _ _ E). unfold bind, gets, ret.
      apply Ok_eq; [f_equal; lia|]. now destruct s2.
    + reflexivity.
    + reflexivity.
    + cbn [map fst]. intros a [<-|Ha]; cbn [wrefp sf].
      * rewrite Eaddr. discriminate.
      * now apply R.
    + cbn [map fst]. intros a Ha. cbn [wrefp sf]. rewrite N by (intros F; apply Ha; now right).
      cbn [wrefp s1]. apply alookup_cons_ne. intros ->; apply Ha; now left.
    + intros Hlt c rest (C1 & C2 & C3) K Cn T.
      assert (W0 : 0 <= wpos s) by (unfold wpos; lia).
      rewrite lor_count in T by lia. unfold tw in T. rewrite <- !app_assoc in T. fold tw in T. cbn [app] in T.
      set (c1 := c_past c (be 4 kNewClassTag ++ class ++ 0 :: w ++ rest) 4).
      set (c2 := c_past c1 (class ++ 0 :: w ++ rest) 4).
      set (c3 := c_past c2 (w ++ rest) (zlen class + 1)).
      set (c4 := mkCur (c_todo c3) (c_at c3) ((c_at c + 4 + 2, class) :: c_classes c3) (c_objects c3) (S (c_count c3))).
      assert (Ci4 : cinv s1 c4).
      { split; [|split]; unfold c4, c3, c2, c1, c_past; cbn [c_at c_objects c_classes].
        - lia.
        - intros k' v' I. specialize (C2 k' v' I). lia.
        - intros cl rv' F. cbn [wrefs s1 alookup] in F. destruct (beqb_spec cl class) as [->|Hne'].
          + injection F as <-. exists (wpos s0 + 2). split; [reflexivity|]. split; [lia|]. split; [lia|].
            replace (c_at c + 4 + 2) with (wpos s0 + 2) by lia. apply alookup_cons_eq.
          + destruct (C3 cl rv' F) as (k' & K1 & K2 & K3 & K4). exists k'. repeat split; auto; try lia.
            rewrite alookup_cons_ne by lia. exact K4. }
      assert (K4 : knows B s1 c4).
      { intros a z I. destruct (K a z I) as (q & Z1 & Z2 & Z3). exists q. cbn [wrefp s1].
        rewrite alookup_cons_ne by (intros ->; apply HnB; now apply (in_map fst) in I). split; [exact Z1|]. split; [exact Z2|exact Z3]. }
      destruct (Q ltac:(lia) c4 rest Ci4 K4) as (c5 & Q1 & Q2 & Q3 & Q4 & Q5 & Q6); [unfold c4, c3, c2, c1, c_past; cbn [c_count]; lia|reflexivity|].
      set (c6 := mkCur (c_todo c5) (c_at c5) (c_classes c5) ((c_at c + 2, DPtr n v) :: c_objects c5) (c_count c5)).
      assert (X : forall k' v', In (k', v') (c_objects c5) -> k' <> c_at c + 2).
      { intros k' v' I. destruct Q6 as (e & Ee & Le). rewrite Ee in I. apply in_app_iff in I as [I|I].
        - specialize (Le k' v' I). unfold c4, c3, c2, c1, c_past in Le. cbn [c_at] in Le. lia.
        - unfold c4, c3, c2, c1, c_past in I. cbn [c_objects] in I. specialize (C2 k' v' I). lia. }
      destruct Q4 as (D1 & D2 & D3).
      exists c6. split.
      * unfold pointer. unfold whereat, gets. unfold bind at 1.
        rewrite (bind_Ok _ _ _ _ _ (word_ok (2 ^ 30 + (zlen tw + zlen w)) c _ ltac:(lia) T)).
        destruct (Z.eqb_spec (2 ^ 30 + (zlen tw + zlen w)) 0) as [|_]; [lia|].
        destruct (Z.ltb_spec (2 ^ 30 + (zlen tw + zlen w)) (2 ^ 30)) as [|_]; [lia|].
        fold c1.
        rewrite (bind_Ok _ _ _ _ _ (word_ok kNewClassTag c1 (class ++ 0 :: w ++ rest) ltac:(vm_compute; split; congruence) eq_refl)). fold c2.
        change (kNewClassTag <? 2 ^ 31) with false. change (kNewClassTag =? 2 ^ 32 - 1) with true. cbv iota.
        rewrite !bind_assoc.
        assert (Ecn : class_name c2 = Ok (class, c3)).
        { unfold class_name. change (c_todo c2) with (class ++ 0 :: w ++ rest). rewrite before_nul_ok by apply Hc.
          unfold c_move, c3, c_past. do 3 f_equal. change (c_todo c2) with (class ++ 0 :: w ++ rest).
          replace (Z.to_nat (zlen class + 1)) with (length (class ++ [0])) by (rewrite app_length, zlen_def; cbn [length]; lia).
          change (class ++ 0 :: w ++ rest) with (class ++ [0] ++ w ++ rest). rewrite app_assoc, skipn_app, skipn_all, Nat.sub_diag. reflexivity. }
        rewrite (bind_Ok _ _ _ _ _ Ecn). rewrite !bind_assoc. unfold meet_class, modify. unfold bind at 1. unfold bind at 1, ret at 1.
        rewrite !bind_assoc. unfold meet_object, bind at 1.
        cbn [c_todo c_at c_classes c_objects c_count]. fold c4.
        rewrite bind_assoc, (bind_Ok _ _ _ _ _ Q1).
        unfold keep_object, modify, bind, ret. replace (c_count c3) with n by (unfold c3, c2, c1, c_past; cbn [c_count]; lia).
        fold c6. change (c_at c6) with (c_at c5). replace (_ =? _) with true by (symmetry; lia). reflexivity.
      * split; [exact Q2|]. split; [exact Q3|]. split; [|split].
        { split; [|split]; unfold c6; cbn [c_at c_objects c_classes].
          - lia.
          - intros k' v' [[= <- <-]|I]; [lia|now apply (D2 k' v')].
          - exact D3. }
        { intros a z [[= <- <-]|I].
          - exists (wpos s + 2). cbn [wrefp sf]. split; [exact Eaddr|]. split; [lia|].
            unfold c6; cbn [c_objects]. rewrite <- C1. apply alookup_cons_eq.
          - destruct (Q5 a z I) as (q & Z1 & Z2 & Z3). exists q. cbn [wrefp sf]. split; [exact Z1|]. split; [exact Z2|].
            unfold c6; cbn [c_objects]. rewrite alookup_cons_ne; [exact Z3|]. apply alookup_in in Z3. now apply X in Z3. }
        { destruct Q6 as (e & Ee & Le). exists ((c_at c + 2, DPtr n v) :: e). split; [unfold c6; cbn [c_objects app]; now rewrite Ee|].
          intros k' v' [[= <- <-]|I]; [lia|]. specialize (Le k' v' I). unfold c4, c3, c2, c1, c_past in Le. cbn [c_at] in Le. lia. }
Qed.

(** An object met before. *)
Lemma gs_ref (obj : bytes -> G dval) n class addr (marsh : W Z) v :
  gs n n [(addr, v)] [] (write_object_any class addr marsh) (pointer obj) v.
Proof.
  intros s Hne Ho _ HBs. specialize (HBs addr (or_introl eq_refl)).
  destruct (alookup Z.eqb addr (wrefp s)) as [q|] eqn:Eq; [|contradiction].
  pose proof (zlen_nonneg (wp s)) as Hlen.
  set (s0 := w_app s (be 4 0)).
  assert (Hne0 : nonempty s0) by (unfold nonempty, s0; cbn [wp w_app w_set_p be]; apply app_nonempty).
  exists 8, (w_app s (be 4 (Z.lor 4 kByteCountMask) ++ be 4 q)), (be 4 (Z.lor 4 kByteCountMask) ++ be 4 q).
  split; [|split; [reflexivity|split; [reflexivity|split; [intros a []|split; [reflexivity|]]]]].
  - unfold write_object_any, gets, bind at 1.
    rewrite (bind_Ok _ _ _ _ _ (len_minus_1_ok s Hne)).
    unfold write_i32, write_int, put. unfold bind at 1. fold s0.
    assert (Hw : write_class (wpos s) class addr marsh s0
       = Ok (Z.lor 4 kByteCountMask, w_app s0 (be 4 q))).
    { unfold write_class. rewrite (bind_Ok _ _ _ _ _ (len_minus_1_ok s0 Hne0)).
      unfold gets, bind at 1, bind at 1. change (wrefp s0) with (wrefp s). rewrite Eq.
      unfold write_u32, write_int, put, bind, ret.
      do 3 f_equal. unfold wpos; cbn [wp woff w_app w_set_p]. rewrite zlen_app, zlen_be. lia. }
    rewrite (bind_Ok _ _ _ _ _ Hw).
    unfold bind at 1. unfold write_in_place. unfold s0. rewrite w_app_app. cbn [wp woff w_app w_set_p].
    replace (wpos s - woff s) with (zlen (wp s)) by (unfold wpos; lia).
    rewrite !zlen_app, !zlen_be. replace (_ && _) with true by (symmetry; lia).
    rewrite patch_mid by now rewrite !zlen_be.
    unfold bind, ret. unfold w_set_p, wpos; cbn [wp woff wrefp wrefs w_set_p].
    rewrite !zlen_app, !zlen_be. apply Ok_eq; [cbn [woff w_app w_set_p]; lia|reflexivity].
  - intros Hlt c rest (C1 & C2 & C3) K Cn T. rewrite lor_count in T by lia. rewrite <- !app_assoc in T.
    destruct (K addr v (or_introl eq_refl)) as (q' & Z1 & Z2 & Z3). rewrite Eq in Z1. injection Z1 as <-.
    set (c1 := c_past c (be 4 q ++ rest) 4). set (c2 := c_past c1 rest 4).
    exists c2. split; [|split; [reflexivity|split; [exact Cn|split; [|split; [apply knows_nil|now apply ext_refl]]]]].
    + unfold pointer. unfold whereat, gets. unfold bind at 1.
      rewrite (bind_Ok _ _ _ _ _ (word_ok (2 ^ 30 + 4) c _ ltac:(lia) T)). change (2 ^ 30 + 4 =? 0) with false. change (2 ^ 30 + 4 <? 2 ^ 30) with false. cbv iota.
      fold c1. rewrite (bind_Ok _ _ _ _ _ (word_ok q c1 rest ltac:(lia) eq_refl)). fold c2. destruct (Z.ltb_spec q (2 ^ 31)) as [_|]; [|lia].
      unfold seen_object, bind. change (c_objects c2) with (c_objects c). rewrite Z3.
      unfold c2, c1, c_past; cbn [c_at]. replace (_ =? _) with true by (symmetry; lia). reflexivity.
    + split; [|split]; unfold c2, c1, c_past; cbn [c_at c_objects c_classes].
      * rewrite C1. unfold wpos; cbn [wp woff w_app w_set_p]. rewrite !zlen_app, !zlen_be. lia.
      * intros k u I. specialize (C2 k u I). lia.
      * intros cl rv E. destruct (C3 cl rv E) as (k & K1 & K2 & K3 & K4). exists k. repeat split; auto; lia.
Qed.
