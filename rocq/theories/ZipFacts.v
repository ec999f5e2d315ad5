(** Facts about reading branches with sub-branches. *)
From Verif Require Import Base Bytes RBuf Codec Values ColRead SliceRead SpecRead.

Lemma cut_length n s b : length (cut n s b) = n.
Proof. revert b; induction n as [|n IH]; intros b; cbn [cut length]; auto. Qed.
Lemma skipn_plus {A} a b (l : list A) : skipn a (skipn b l) = skipn (b + a) l.
Proof.
  revert l; induction b as [|b IH]; intros l; [reflexivity|]. destruct l; [now rewrite !skipn_nil|]. cbn [Nat.add skipn]. apply IH.
Qed.
Lemma cut_skip n s b k : (k < n)%nat -> skipn k (cut n s b) = firstn s (skipn (k * s) b) :: skipn (S k) (cut n s b).
Proof.
  revert b k; induction n as [|n IH]; intros b k H; [lia|]. destruct k as [|k]; [reflexivity|].
  cbn [cut]. change (skipn (S k) (firstn s b :: cut n s (skipn s b))) with (skipn k (cut n s (skipn s b))).
  change (skipn (S (S k)) (firstn s b :: cut n s (skipn s b))) with (skipn (S k) (cut n s (skipn s b))).
  rewrite IH by lia. now rewrite skipn_plus.
Qed.

Lemma upd_app {A} (l : list A) x y r k : length l = k -> upd k y (l ++ x :: r) = l ++ y :: r.
Proof. intros <-. induction l as [|a l IH]; cbn [length app upd]; congruence. Qed.
Lemma nth_app {A} (l : list A) x r k : length l = k -> nth_error (l ++ x :: r) k = Some x.
Proof. intros <-. induction l as [|a l IH]; cbn [length app nth_error]; auto. Qed.

(** The state of one branch, and the entries it has still to give. *)
Inductive bst : list chunk -> option chunk -> Z -> Z -> list bytes -> Prop :=
| bst_end cur nb : bst [] None cur nb []
| bst_on it n s b cur : full_chunk (Regular n s b) -> Forall full_chunk it -> 0 <= cur < n ->
    bst it (Some (Regular n s b)) cur n (skipn (Z.to_nat cur) (cut (Z.to_nat n) (Z.to_nat s) b) ++ entries it).
Inductive zinv : list (list chunk) -> list (option chunk) -> list Z -> list Z -> list (list bytes) -> Prop :=
| zinv_nil : zinv [] [] [] [] []
| zinv_cons it its o out c cur n nb p ps : bst it o c n p -> zinv its out cur nb ps ->
    zinv (it :: its) (o :: out) (c :: cur) (n :: nb) (p :: ps).

Lemma bst_next it n s b cur p : bst it (Some (Regular n s b)) cur n p ->
  exists x r, p = x :: r /\ slice b (cur * to_u64 s) ((cur + 1) * to_u64 s) = Ok x /\
   ((cur + 1 <> n /\ bst it (Some (Regular n s b)) (cur + 1) n r) \/
    (cur + 1 = n /\ match it with [] => r = [] | c :: it' => bst it' (Some c) 0 (chunk_n c) r end)).
Proof.
  intros H. inversion H as [|it' n' s' b' cur' G FG C]; subst. destruct G as (G1 & G2 & G3).
  assert (US : to_u64 s = s) by (unfold to_u64; apply Z.mod_small; lia). rewrite US.
  rewrite cut_skip by lia. eexists. eexists. split; [reflexivity|]. split.
  - unfold slice. assert (X : (0 <=? cur * s) && (cur * s <=? (cur + 1) * s) && ((cur + 1) * s <=? zlen b) = true).
    { rewrite !andb_true_iff, !Z.leb_le. nia. }
    rewrite X. unfold zsub. f_equal. replace ((cur + 1) * s - cur * s) with s by lia.
    now rewrite Z2Nat.inj_mul by lia.
  - destruct (Z.eq_dec (cur + 1) n) as [E|E]; [right|left]; (split; [exact E|]).
    + assert (SK : skipn (S (Z.to_nat cur)) (cut (Z.to_nat n) (Z.to_nat s) b) = []).
      { apply skipn_all2. rewrite cut_length. lia. }
      rewrite SK. cbn [app]. destruct it as [|c it]; [reflexivity|]. inversion FG as [|c' it' FC FI]; subst.
      destruct c as [n1 s1 b1|]; [|contradiction]. cbn [entries flat_map chunk_entries chunk_n].
      change (cut (Z.to_nat n1) (Z.to_nat s1) b1) with (skipn (Z.to_nat 0) (cut (Z.to_nat n1) (Z.to_nat s1) b1)). constructor; auto.
      destruct FC as (FC & _). lia.
    + replace (S (Z.to_nat cur)) with (Z.to_nat (cur + 1)) by lia. constructor; [repeat split; lia|exact FG|lia].
Qed.

Lemma zip_loop_ok its out cur nb ps : zinv its out cur nb ps -> Forall (fun o => o <> None) out ->
  forall its1 out1 cur1 nb1 acc, length out1 = length its1 -> length cur1 = length its1 -> length nb1 = length its1 ->
  exists its' out' cur' nb',
    zip_loop (length out) (length its1) acc (mkZip (its1 ++ its) (out1 ++ out) (cur1 ++ cur) (nb1 ++ nb)) =
      Ok (acc ++ concat (map (fun p => hd [] p) ps), mkZip (its1 ++ its') (out1 ++ out') (cur1 ++ cur') (nb1 ++ nb')) /\
    zinv its' out' cur' nb' (map (fun p => tl p) ps).
Proof.
  induction 1 as [|it its o out c cur n nb p ps B ZI IH]; intros NN its1 out1 cur1 nb1 acc L1 L2 L3.
  - exists [], [], [], []. split; [cbn [map concat length zip_loop]; now rewrite (app_nil_r acc)|constructor].
  - inversion NN as [|o' out' N1 N2]; subst. destruct o as [o|]; [|congruence].
    destruct o as [n0 s b|]; [|inversion B].
    assert (n = n0) by (inversion B; reflexivity). subst n0.
    destruct (bst_next _ _ _ _ _ _ B) as (x & r & -> & SL & ST).
    assert (BD : 0 < n < 2 ^ 31) by (inversion B as [|? ? ? ? ? G]; destruct G; lia).
    cbn [length zip_loop z_out z_cur z_nb].
    rewrite (nth_app out1 _ _ _ L1), (nth_app cur1 _ _ _ L2), (nth_app nb1 _ _ _ L3).
    rewrite SL. cbn [rbind z_its z_out z_cur z_nb].
    assert (UN : to_u64 n = n) by (unfold to_u64; apply Z.mod_small; lia). rewrite UN.
    assert (Q : exists it' o' c' n', bst it' o' c' n' r /\
      (if c + 1 =? n
       then fill_one (length its1) (mkZip (its1 ++ it :: its) (upd (length its1) None (out1 ++ Some (Regular n s b) :: out))
              (upd (length its1) (c + 1) (cur1 ++ c :: cur)) (nb1 ++ n :: nb))
       else Ok (mkZip (its1 ++ it :: its) (out1 ++ Some (Regular n s b) :: out) (upd (length its1) (c + 1) (cur1 ++ c :: cur)) (nb1 ++ n :: nb)))
      = Ok (mkZip (its1 ++ it' :: its) (out1 ++ o' :: out) (cur1 ++ c' :: cur) (nb1 ++ n' :: nb))).
    { replace (upd (length its1) (c + 1) (cur1 ++ c :: cur)) with (cur1 ++ (c + 1) :: cur) by (now rewrite upd_app).
      replace (upd (length its1) None (out1 ++ Some (Regular n s b) :: out)) with (out1 ++ None :: out) by (now rewrite upd_app).
      destruct ST as [[E ST]|[E ST]].
      - destruct (Z.eqb_spec (c + 1) n); [contradiction|]. exists it, (Some (Regular n s b)), (c + 1), n. split; [exact ST|reflexivity].
      - destruct (Z.eqb_spec (c + 1) n); [|contradiction]. unfold fill_one. cbn [z_its z_out z_cur z_nb]. rewrite (nth_app its1) by reflexivity.
        destruct it as [|c' it].
        + subst r. exists [], None, (c + 1), n. split; [constructor|reflexivity].
        + exists it, (Some c'), 0, (chunk_n c'). split; [exact ST|]. 
          rewrite (upd_app its1) by reflexivity. now rewrite !upd_app by assumption. }
    destruct Q as (it' & o' & c' & n' & Q1 & ->). cbn [rbind].
    destruct (IH N2 (its1 ++ [it']) (out1 ++ [o']) (cur1 ++ [c']) (nb1 ++ [n']) (acc ++ x)) as (its' & out' & cur' & nb' & E & ZI');
      [rewrite !app_length; cbn [length]; lia..|].
    rewrite <- !app_assoc in E. cbn [app] in E. rewrite app_length in E. cbn [length] in E. rewrite Nat.add_1_r in E. rewrite E.
    exists (it' :: its'), (o' :: out'), (c' :: cur'), (n' :: nb'). cbn [app map hd tl concat].
    split; [reflexivity|]. constructor; assumption.
Qed.

Lemma zinv_lengths its out cur nb ps : zinv its out cur nb ps ->
  length out = length ps /\ length cur = length ps /\ length its = length ps.
Proof. induction 1; cbn [length]; lia. Qed.

(** Reading rows until a column ends. *)
Fixpoint take_rows (fuel : nat) (ps : list (list bytes)) : list bytes :=
  match fuel with
  | O => []
  | S n => if forallb (fun p => match p with [] => false | _ => true end) ps
           then concat (map (fun p => hd [] p) ps) :: take_rows n (map (fun p => tl p) ps)
           else []
  end.

Lemma zinv_none its out cur nb ps : zinv its out cur nb ps ->
  existsb (fun c : option chunk => match c with None => true | Some _ => false end) out =
  negb (forallb (fun p : list bytes => match p with [] => false | _ => true end) ps) /\
  (existsb (fun c : option chunk => match c with None => true | Some _ => false end) out = false ->
   forallb is_regular out = true /\ Forall (fun o => o <> None) out).
Proof.
  induction 1 as [|it its o out c cur n nb p ps B ZI [IH1 IH2]]; [split; [reflexivity|auto]|].
  destruct o as [o|]; [|inversion B; subst; cbn; split; [reflexivity|discriminate]].
  destruct o as [n0 s b|]; [|inversion B]. assert (n = n0) by (inversion B; reflexivity). subst n0.
  destruct (bst_next _ _ _ _ _ _ B) as (x & r & -> & _). cbn [existsb orb forallb andb is_regular]. split; [exact IH1|].
  intros E. destruct (IH2 E). split; auto. constructor; auto. discriminate.
Qed.

Lemma zip_collect_ok {A} (func : bytes -> res A) fuel : forall its out cur nb ps, zinv its out cur nb ps -> ps <> [] ->
  (shortest ps < fuel)%nat -> zip_collect func fuel (mkZip its out cur nb) = res_map func (take_rows fuel ps).
Proof.
  induction fuel as [|fuel IH]; intros its out cur nb ps ZI NE LT; [lia|]. cbn [zip_collect take_rows].
  destruct (zinv_lengths _ _ _ _ _ ZI) as (LO & LC & LI). destruct (zinv_none _ _ _ _ _ ZI) as (N1 & N2).
  unfold zip_next. cbn [z_out].
  assert (ON : exists o out', out = o :: out') by (destruct out; [destruct ps; [congruence|discriminate]|eauto]).
  destruct ON as (o & out' & ->). cbn [z_out]. rewrite N1.
  destruct (forallb _ ps) eqn:FP; cbn [negb]; [|reflexivity].
  destruct (N2 N1) as (R1 & R2). rewrite R1. cbn [negb z_cur]. rewrite LC, <- LO.
  destruct (zip_loop_ok _ _ _ _ _ ZI R2 [] [] [] [] [] eq_refl eq_refl eq_refl) as (its' & out2 & cur' & nb' & E & ZI').
  cbn [app length] in E. cbn [length]. rewrite E. cbn [rbind fst snd].
  cbn [res_map]. rewrite (IH _ _ _ _ _ ZI'); [reflexivity|destruct ps; [congruence|discriminate]|].
  clear - LT FP NE. destruct ps as [|p ps]; [congruence|]. cbn [shortest map] in *. cbn [forallb] in FP. apply andb_true_iff in FP as [F1 F2].
  destruct p as [|x p]; [discriminate|]. cbn [tl length] in *.
  enough (S (fold_right Nat.min (length p) (map (@length bytes) (map (fun p0 => tl p0) ps))) = fold_right Nat.min (S (length p)) (map (@length bytes) ps)) by lia.
  clear LT NE. induction ps as [|q ps IHq]; [reflexivity|]. cbn [map fold_right forallb] in *. apply andb_true_iff in F2 as [F2 F3].
  destruct q as [|y q]; [discriminate|]. cbn [tl length]. rewrite <- IHq by exact F3. lia.
Qed.

Lemma fold_min_zero x l : x = 0%nat \/ In 0%nat l -> fold_right Nat.min x l = 0%nat.
Proof. induction l as [|a l IH]; cbn [fold_right In]; [tauto|]. intros [->|[->|H]]; [rewrite IH; auto; lia|reflexivity|rewrite IH; auto; lia]. Qed.
Lemma shortest_zero (ps : list (list bytes)) : forallb (fun p => match p with [] => false | _ => true end) ps = false -> shortest ps = 0%nat.
Proof.
  destruct ps as [|p ps]; [discriminate|]. cbn [forallb shortest]. intros H. apply fold_min_zero. apply andb_false_iff in H as [H|H].
  - left. now destruct p.
  - right. induction ps as [|q ps IH]; [discriminate|]. cbn [forallb map] in *. apply andb_false_iff in H as [H|H]; [left; now destruct q|right; auto].
Qed.

Lemma take_rows_ok fuel : forall ps, ps <> [] -> (shortest ps < fuel)%nat -> take_rows fuel ps = rows ps.
Proof.
  induction fuel as [|fuel IH]; intros ps NE LT; [lia|]. cbn [take_rows].
  destruct (forallb _ ps) eqn:FP.
  - assert (SH : shortest ps = S (shortest (map (fun p : list bytes => tl p) ps))).
    { destruct ps as [|p ps]; [congruence|]. cbn [shortest map forallb] in *. apply andb_true_iff in FP as [F1 F2].
      destruct p as [|x p]; [discriminate|]. cbn [tl length]. clear - F2. induction ps as [|q ps IHq]; [reflexivity|].
      cbn [map fold_right forallb] in *. apply andb_true_iff in F2 as [F2 F3]. destruct q as [|y q]; [discriminate|]. cbn [tl length].
      rewrite IHq by exact F3. lia. }
    rewrite IH; [|destruct ps; [congruence|discriminate]|lia]. unfold rows. rewrite SH. cbn [seq map]. f_equal.
    + unfold row. f_equal. apply map_ext. now intros [|? ?].
    + rewrite <- seq_shift, map_map. apply map_ext. intros i. unfold row. rewrite map_map. f_equal. apply map_ext. intros [|? ?]; [now destruct i|reflexivity].
  - unfold rows. now rewrite shortest_zero.
Qed.

Lemma bst_start it : it <> [] -> Forall full_chunk it ->
  exists c r, it = c :: r /\ bst r (Some c) 0 (chunk_n c) (entries it).
Proof.
  intros NE F. destruct it as [|c r]; [congruence|]. exists c, r. split; [reflexivity|]. inversion F as [|c' r' FC FR]; subst.
  destruct c as [n s b|]; [|contradiction]. change (entries (Regular n s b :: r)) with
    (skipn (Z.to_nat 0) (cut (Z.to_nat n) (Z.to_nat s) b) ++ entries r). constructor; auto. destruct FC. lia.
Qed.

Lemma entries_length it : Forall full_chunk it -> length (entries it) = list_sum (map (fun c => Z.to_nat (chunk_n c)) it).
Proof.
  induction 1 as [|c it FC F IH]; [reflexivity|]. unfold entries in *. cbn [flat_map map]. rewrite app_length, IH.
  change (list_sum (?a :: ?l)) with (a + list_sum l)%nat. destruct c as [n s b|]; [|contradiction]. cbn [chunk_entries chunk_n].
  now rewrite cut_length.
Qed.

Theorem zip_all_ok {A} (func : bytes -> res A) its : its <> [] -> Forall (fun it => it <> [] /\ Forall full_chunk it) its ->
  zip_all func its = res_map func (rows (map entries its)).
Proof.
  intros NE F. unfold zip_all. set (fuel := S (S _)).
  assert (FO : exists its' out cur nb, fill_output (mkZip its [] [] []) = mkZip its' out cur nb /\ zinv its' out cur nb (map entries its)).
  { unfold fill_output. cbn [z_its z_out z_cur z_nb app]. eexists _, _, _, _. split; [reflexivity|].
    clear NE fuel. induction F as [|it its [N1 F1] F IH]; [constructor|].
    destruct (bst_start it N1 F1) as (c & r & -> & B). cbn [flat_map map tl app]. constructor; [exact B|exact IH]. }
  destruct FO as (its' & out & cur & nb & FO & ZI).
  assert (NE' : map entries its <> []) by (destruct its; [congruence|discriminate]).
  assert (LT : (shortest (map entries its) < fuel)%nat).
  { subst fuel. destruct its as [|it its]; [congruence|]. inversion F as [|it0 its0 [_ F1] F2]; subst.
    assert (shortest (map entries (it :: its)) <= length (entries it))%nat.
    { cbn [map shortest]. induction (map (@length bytes) (map entries its)); cbn [fold_right]; lia. }
    rewrite entries_length in H by exact F1. cbn [concat]. rewrite map_app, list_sum_app.
    assert (list_sum (map (fun c => Z.to_nat (chunk_n c)) it) <= list_sum (map chunk_work it))%nat.
    { clear. induction it as [|c it IH]; [reflexivity|]. cbn [map list_sum fold_right].
      fold (list_sum (map (fun c => Z.to_nat (chunk_n c)) it)). fold (list_sum (map chunk_work it)).
      destruct c; cbn [chunk_n chunk_work]; lia. }
    lia. }
  rewrite <- (take_rows_ok fuel) by assumption. rewrite <- (zip_collect_ok func fuel its' out cur nb) by assumption.
  subst fuel. set (k := S (list_sum _)). cbn [zip_collect].
  assert (EN : zip_next (mkZip its [] [] []) = zip_next (mkZip its' out cur nb)); [|now rewrite EN].
  destruct (zinv_lengths _ _ _ _ _ ZI) as (LO & _). rewrite map_length in LO.
  unfold zip_next. cbn [z_out]. rewrite FO. cbn [z_out]. destruct out as [|o out]; [|reflexivity].
  destruct its; [congruence|discriminate].
Qed.

(** ** Fields and slices *)

Lemma reads_fields ts : forall vs, Forall2 wt ts vs ->
  reads_sk None (read_fields ts) (concat (map (fun tv => enc (fst tv) (snd tv)) (combine ts vs))) vs.
Proof.
  induction ts as [|t ts IH]; intros vs F; inversion F as [|t' v ts' vs' W F']; subst; cbn [read_fields combine map concat fst snd]; [apply reads_ret|].
  eapply reads_bind; [now apply reads_unmarshal|].
  rewrite <- (app_nil_r (concat _)). eapply reads_bind; [now apply IH|apply reads_ret].
Qed.

Lemma reads_fixed t k : fixed_size t = Some k -> forall v sk, wt t v -> reads_sk sk (unmarshal t) (enc t v) v.
Proof.
  revert k; induction t as [p| |t IH|n t IH]; cbn [fixed_size]; intros k Hk; try discriminate; intros [z|s|l] sk W; cbn [wt] in W; try contradiction;
    cbn [unmarshal enc].
  - rewrite <- (app_nil_r (be _ _)). eapply reads_bind; [now apply reads_prim|apply reads_ret].
  - destruct (fixed_size t) as [k'|]; [|discriminate]. destruct W as [<- Hf]. rewrite <- (app_nil_r (flat_map (enc t) l)).
    eapply reads_bind; [|apply reads_ret]. apply reads_repeat. intros a Ha. apply (IH k' eq_refl). eapply Forall_forall; eauto.
Qed.

Lemma slice_loop_ok t k : fixed_size t = Some k -> 0 < k -> forall vs fuel inner pre off rr sk, Forall (wt t) vs ->
  (length vs <= fuel)%nat ->
  slice_loop (unmarshal t) fuel (zlen (flat_map (enc t) vs)) inner (mkR (pre ++ flat_map (enc t) vs) (zlen pre) off rr sk) =
  Ok (inner ++ vs, mkR (pre ++ flat_map (enc t) vs) (zlen pre + zlen (flat_map (enc t) vs)) off rr sk).
Proof.
  intros FS HK. induction vs as [|v vs IH]; intros fuel inner pre off rr sk W L.
  - cbn [flat_map]. rewrite (@zlen_nil Z), Z.add_0_r, !app_nil_r. destruct fuel; reflexivity.
  - inversion W as [|v' vs' Wv Wvs]; subst. destruct fuel as [|fuel]; [cbn in L; lia|]. cbn [flat_map].
    pose proof (enc_fixed t k FS v Wv) as LE. pose proof (zlen_nonneg (flat_map (enc t) vs)).
    cbn [slice_loop]. rewrite zlen_app, LE. destruct (Z.leb_spec (k + zlen (flat_map (enc t) vs)) 0); [lia|].
    rewrite (reads_fixed t k FS v sk Wv pre (flat_map (enc t) vs) off rr). rewrite LE. unfold r_pos. cbn [rc roff].
    replace (k + zlen (flat_map (enc t) vs) - (zlen pre + k + off - (zlen pre + off))) with (zlen (flat_map (enc t) vs)) by lia.
    destruct (Z.ltb_spec (zlen (flat_map (enc t) vs)) 0); [lia|].
    specialize (IH fuel (inner ++ [v]) (pre ++ enc t v) off rr sk Wvs). rewrite <- !app_assoc in IH. rewrite zlen_app, LE in IH. rewrite IH by (cbn in L; lia).
    cbn [app]. now rewrite Z.add_assoc.
Qed.

Lemma slice_entry t k h hd vs : fixed_size t = Some k -> 0 < k -> entry_header h hd -> Forall (wt t) vs ->
  rrun 0 (set_skip_header (Some h) ;;; unmarshal_slice (unmarshal t)) (hd ++ flat_map (enc t) vs) = Ok vs.
Proof.
  intros FS HK [LH H] W. unfold rrun, r_new, set_skip_header, modify. unfold bind at 1. unfold r_set_skip. cbn [rp rc roff rrefs].
  unfold unmarshal_slice. pose proof (zlen_nonneg hd) as P1. pose proof (zlen_nonneg (flat_map (enc t) vs)) as P2.
  set (B := hd ++ flat_map (enc t) vs).
  assert (LB : zlen B = h + zlen (flat_map (enc t) vs)) by (unfold B; rewrite zlen_app, LH; reflexivity).
  assert (SKP : skip h (mkR B 0 0 [] (Some h)) = Ok (tt, mkR B h 0 [] (Some h))).
  { unfold skip, set_pos, r_pos, r_set_c. cbn [rc roff rp rrefs rskip]. rewrite Z.add_0_r, Z.sub_0_r.
    destruct (Z.leb_spec 0 (0 + h)); [reflexivity|lia]. }
  assert (SK : do_skip_header (mkR B 0 0 [] (Some h)) = Ok (tt, mkR B h 0 [] (Some h))).
  { unfold do_skip_header. cbn [rskip]. unfold r_len at 1 2. cbn [rp rc]. rewrite LB.
    replace (h + zlen (flat_map (enc t) vs) - 0 <? h) with false by (symmetry; lia).
    destruct ((1 <? h + zlen (flat_map (enc t) vs) - 0) && (1 <? h)) eqn:E; [|exact SKP].
    destruct H as [H|(r & ->)]; [lia|].
    assert (RU : read_u8 (mkR B 0 0 [] (Some h)) = Ok (64, mkR B 1 0 [] (Some h))).
    { pose proof (reads_uint 1 64 (Some h) ltac:(red; change (256 ^ Z.of_nat 1) with 256; lia) [] (r ++ flat_map (enc t) vs) 0 []) as RU.
      exact RU. }
    rewrite (bind_Ok _ _ _ _ _ RU). rewrite (bind_Ok _ _ _ tt (mkR B 0 0 [] (Some h))) by reflexivity.
    change (64 =? 64) with true. cbv iota. exact SKP. }
  rewrite (bind_Ok _ _ _ _ _ SK). unfold r_len. cbn [rp rc]. rewrite LB.
  replace (h + zlen (flat_map (enc t) vs) - h) with (zlen (flat_map (enc t) vs)) by lia.
  unfold B. rewrite <- LH. rewrite (slice_loop_ok t k FS HK vs _ [] hd); auto.
  rewrite (flat_map_len (enc t) k) by (intros a Ha; apply (enc_fixed t k FS); eapply Forall_forall; eauto).
  rewrite zlen_def. nia.
Qed.

(** ** Sub-branches of fixed-size types *)

Lemma reads_then {A B} sk (m : R A) (g : A -> B) w a : reads_sk sk m w a -> reads_sk sk (x <- m ;; ret (g x)) w (g a).
Proof. intros H. rewrite <- (app_nil_r w). eapply reads_bind; [exact H|apply reads_ret]. Qed.

Lemma prim_reads p b : zlen b = Z.of_nat (prim_size p) -> exists z, forall sk, reads_sk sk (read_prim p) b z.
Proof.
  intros L. destruct p; cbn [prim_size read_prim] in *;
    first [eexists; intros sk; apply reads_then, reads_extract_n; exact L
          |eexists; intros sk; do 3 apply reads_then; apply reads_extract_n; exact L].
Qed.

Definition parses {A} (m : R A) (e : bytes) (v : A) : Prop := forall sk, reads_sk sk m e v.

Lemma cut_sizes k : forall n b, Z.of_nat n * Z.of_nat k <= zlen b -> Forall (fun e => zlen e = Z.of_nat k) (cut n k b).
Proof.
  induction n as [|n IH]; intros b H; cbn [cut]; constructor.
  - rewrite zlen_def in *. rewrite firstn_length. nia.
  - apply IH. rewrite zlen_def in *. rewrite skipn_length. nia.
Qed.
Lemma firstn_plus {A} k : forall m (b : list A), firstn k b ++ firstn m (skipn k b) = firstn (k + m) b.
Proof.
  induction k as [|k IH]; intros m b; cbn [Nat.add firstn skipn app]; [reflexivity|].
  destruct b as [|x b]; cbn [firstn skipn app]; [now rewrite firstn_nil|]. now rewrite IH.
Qed.
Lemma cut_concat k : forall n b, concat (cut n k b) = firstn (n * k) b.
Proof. induction n as [|n IH]; intros b; cbn [cut concat]; [reflexivity|]. rewrite IH. cbn [Nat.mul]. apply firstn_plus. Qed.
Lemma parses_repeat {A} (m : R A) es vs : Forall2 (parses m) es vs -> parses (repeatM (length es) m) (concat es) vs.
Proof.
  induction 1 as [|e v es vs H _ IH]; intros sk; cbn [repeatM length concat]; [apply reads_ret|].
  eapply reads_bind; [apply H|]. apply reads_then, IH.
Qed.
Lemma parse_list {A} (m : R A) k es : (forall e, zlen e = k -> exists v, parses m e v) -> Forall (fun e => zlen e = k) es ->
  exists vs, Forall2 (parses m) es vs.
Proof.
  intros H. induction 1 as [|e es He _ (vs & IH)]; [exists []; constructor|]. destruct (H e He) as (v & Hv). exists (v :: vs). now constructor.
Qed.

Lemma fixed_nonneg t : forall k, fixed_size t = Some k -> 0 <= k.
Proof.
  induction t as [p| |t IH|n t IH]; intros k; cbn [fixed_size]; try discriminate; [intros [= <-]; lia|].
  destruct (fixed_size t) as [k'|]; [|discriminate]. intros [= <-]. specialize (IH k' eq_refl). nia.
Qed.
Lemma fixed_parses t : forall k, fixed_size t = Some k -> forall b, zlen b = k -> exists v, parses (unmarshal t) b v.
Proof.
  induction t as [p| |t IH|n t IH]; intros k; cbn [fixed_size]; try discriminate.
  - intros [= <-] b L. destruct (prim_reads p b L) as (z & Hz). exists (VInt z). intros sk. cbn [unmarshal]. apply (reads_then sk (read_prim p) VInt), Hz.
  - destruct (fixed_size t) as [k'|] eqn:F; [|discriminate]. intros [= <-] b L. pose proof (fixed_nonneg t k' F) as K.
    destruct (parse_list (unmarshal t) k' (cut n (Z.to_nat k') b) (IH k' eq_refl)) as (vs & Hvs).
    { eapply Forall_impl; [|apply cut_sizes; rewrite Z2Nat.id; lia]. cbv beta. intros; lia. }
    exists (VList vs). intros sk. cbn [unmarshal]. apply (reads_then sk (repeatM n (unmarshal t)) VList).
    pose proof (parses_repeat _ _ _ Hvs sk) as P. rewrite cut_length, cut_concat in P.
    rewrite firstn_all2 in P; [exact P|]. rewrite zlen_def in L. nia.
Qed.

Lemma parse_run {A} (m : R A) e post v : parses m e v -> rrun 0 m (e ++ post) = Ok v.
Proof. intros H. unfold rrun, r_new. specialize (H None [] post 0 []). rewrite (@zlen_nil Z) in H. cbn [app] in H. now rewrite H. Qed.

Lemma chunk_parses t k n buf : fixed_size t = Some k -> 0 < n -> n * k <= zlen buf ->
  exists vs, read_chunk (unmarshal t) (Regular n k buf) = Ok vs /\ Forall2 (parses (unmarshal t)) (chunk_entries (Regular n k buf)) vs.
Proof.
  intros F N L. pose proof (fixed_nonneg t k F) as K. cbn [read_chunk chunk_entries].
  destruct (parse_list (unmarshal t) k (cut (Z.to_nat n) (Z.to_nat k) buf) (fixed_parses t k F)) as (vs & Hvs).
  { eapply Forall_impl; [|apply cut_sizes; rewrite !Z2Nat.id; lia]. cbv beta. intros; lia. }
  exists vs. split; [|exact Hvs]. destruct (Z.ltb_spec n 0); [lia|].
  pose proof (parses_repeat _ _ _ Hvs) as P. rewrite cut_length, cut_concat in P.
  rewrite <- (firstn_skipn (Z.to_nat n * Z.to_nat k) buf). now rewrite (parse_run _ _ _ _ P).
Qed.
Lemma chunks_parse t k chs : fixed_size t = Some k ->
  Forall (fun c => exists n buf, c = Regular n k buf /\ 0 < n < 2 ^ 31 /\ n * k <= zlen buf) chs ->
  exists ls, res_map (read_chunk (unmarshal t)) chs = Ok ls /\ Forall2 (parses (unmarshal t)) (entries chs) (concat ls).
Proof.
  intros F. induction 1 as [|c chs (n & buf & -> & N & L) _ (ls & E & P)]; [exists []; split; [reflexivity|constructor]|].
  destruct (chunk_parses t k n buf F ltac:(lia) L) as (vs & E1 & P1). exists (vs :: ls). cbn [res_map]. rewrite E1. cbn [rbind]. rewrite E.
  split; [reflexivity|]. cbn [entries flat_map concat]. now apply Forall2_app.
Qed.

Lemma alone_parses d sis t k s vs : fixed_size t = Some k -> fixed_baskets d sis k s -> alone d sis t s vs ->
  exists chs, baskets_buffer d sis (as_base s) = Ok chs /\ chs <> [] /\ Forall full_chunk chs /\ Forall2 (parses (unmarshal t)) (entries chs) vs.
Proof.
  intros F (S & K & chs & B & N & FC) A. unfold alone, get_basket in A.
  replace (br_subs (as_base s)) with (br_subs s) in A by now destruct s. rewrite S, B in A. cbn [rbind] in A.
  destruct (chunks_parse t k chs F FC) as (ls & E & P). rewrite E in A. cbn [rbind] in A. injection A as <-.
  exists chs. repeat split; auto. eapply Forall_impl; [|exact FC]. intros c (n & buf & -> & H1 & H2). cbn [full_chunk]. auto.
Qed.

Lemma reads_fields_parse ts : forall es vs, Forall2 (fun t ev => parses (unmarshal t) (fst ev) (snd ev)) ts (combine es vs) ->
  length es = length vs -> parses (read_fields ts) (concat es) vs.
Proof.
  induction ts as [|t ts IH]; intros [|e es] [|v vs] H L; cbn [combine] in H; try discriminate L; inversion H; subst; intros sk;
    cbn [read_fields concat]; [apply reads_ret|].
  cbn [fst snd] in *. eapply reads_bind; [match goal with X : parses _ _ _ |- _ => apply X end|].
  apply (reads_then sk (read_fields ts) (fun l => v :: l)). apply IH; [assumption|now injection L].
Qed.

Lemma shortest_same {A B} (l : list (list A)) : forall (m : list (list B)), Forall2 (fun a b => length a = length b) l m -> shortest l = shortest m.
Proof.
  destruct l as [|a l]; intros m H; inversion H as [|x y l' m' E F]; subst; [reflexivity|]. cbn [shortest]. rewrite E. clear E H.
  induction F as [|x z l m E F IH]; cbn [map fold_right]; [reflexivity|]. now rewrite E, IH.
Qed.
Lemma fold_min_le x l y : In y (x :: l) -> (fold_right Nat.min x l <= y)%nat.
Proof. induction l as [|z l IH]; cbn [fold_right In] in *; intros [H|H]; [lia|contradiction|specialize (IH (or_introl H)); lia|]. destruct H as [->|H]; [lia|]. specialize (IH (or_intror H)). lia. Qed.
Lemma shortest_le {A} (l : list (list A)) c : In c l -> (shortest l <= length c)%nat.
Proof.
  destruct l as [|a l]; intros H; [destruct H|]. cbn [shortest]. apply fold_min_le. destruct H as [->|H]; [now left|right].
  apply (in_map (@length A)) in H. exact H.
Qed.

Lemma F2_len {A B} (Q : A -> B -> Prop) l m : Forall2 Q l m -> length l = length m.
Proof. induction 1; cbn; auto. Qed.
Lemma Forall2_nth {A B} (Q : A -> B -> Prop) l m i a b : Forall2 Q l m -> (i < length l)%nat -> Q (nth i l a) (nth i m b).
Proof. intros H; revert i; induction H; intros [|i] L; cbn in *; try lia; auto. apply IHForall2. lia. Qed.

Lemma zip_values ts : forall ess vss, Forall2 (fun t ev => Forall2 (parses (unmarshal t)) (fst ev) (snd ev)) ts (combine ess vss) ->
  length ess = length vss -> ess <> [] ->
  res_map (fun buf => unwrap (rrun 0 (read_fields ts) buf)) (rows ess) = Ok (value_rows vss).
Proof.
  intros ess vss H L NE.
  assert (SH : shortest ess = shortest vss).
  { apply shortest_same. clear NE. revert ess vss H L. induction ts as [|t ts IH]; intros [|e ess] [|v vss] H L; try discriminate L; inversion H; subst; constructor.
    - match goal with X : Forall2 _ (fst (e, v)) _ |- _ => exact (F2_len _ _ _ X) end.
    - apply IH; [assumption|now injection L]. }
  unfold rows, value_rows. rewrite <- SH.
  assert (G : forall i, In i (seq 0 (shortest ess)) ->
      unwrap (rrun 0 (read_fields ts) (row ess i)) = Ok (map (fun c => nth i c (VInt 0)) vss)).
  { intros i Hi. apply in_seq in Hi. unfold row. rewrite <- (app_nil_r (concat _)). erewrite parse_run; [reflexivity|].
    apply reads_fields_parse; [|now rewrite !map_length].
    assert (LE : forall c, In c ess -> (i < length c)%nat) by (intros c Hc; pose proof (shortest_le ess c Hc); lia).
    clear SH NE Hi. revert ess vss H L LE. induction ts as [|t ts IH]; intros [|e ess] [|v vss] H L LE; try discriminate L; inversion H; subst; cbn [map combine]; constructor.
    - cbn [fst snd] in *. apply Forall2_nth; [assumption|]. apply LE. now left.
    - apply IH; [assumption|now injection L|]. intros c Hc. apply LE. now right. }
  clear - G. induction (seq 0 (shortest ess)) as [|i l IH]; cbn [map res_map]; [reflexivity|].
  rewrite (G i) by now left. cbn [rbind]. rewrite IH by (intros j Hj; apply G; now right). reflexivity.
Qed.
