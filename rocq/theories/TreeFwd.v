(** Writing all the columns of a tree succeeds when there is room for them. *)
From Verif Require Export ColFwd.

Lemma somes_split {A} k (it : list (option A)) : somes (firstn k it) ++ somes (skipn k it) = somes it.
Proof. revert it; induction k as [|k IH]; intros [|[a|] it]; cbn [firstn skipn somes app]; auto. now rewrite IH. Qed.
Lemma somes_hd {A} (it : list (option A)) : somes it = opt_list (hd None it) ++ somes (tl it).
Proof. destruct it as [|[a|] it]; reflexivity. Qed.

Section Rows.
Variables (path tn : bytes).
Hypothesis P : path_ok path.

Definition scost (s : cspec) : Z := cost (cs_name s) tn (cs_ty s) (somes (cs_it s)).
Definition sroom (s : cspec) : Prop :=
  roomy (cs_ty s) (somes (cs_it s)) /\ zlen (SpecRoom.cut (esz (cs_ty s)) [] (somes (cs_it s))) <= 32767.
Definition sumz {A} (g : A -> Z) (l : list A) : Z := fold_right Z.add 0 (map g l).
Definition useds (cols : list (wcol * bool)) : Z := sumz (fun cd => used (fst cd)) cols.
Definition plive (recs : list bytes) (s : cspec) := col_pl path (cs_name s) tn (cs_ty s) recs.
Definition popen (recs : list bytes) (s : cspec) := col_p path (cs_name s) tn (cs_ty s) recs.

Lemma col_p_grows nm t recs recs' vals c : grows recs recs' -> col_p path nm tn t recs vals c -> col_p path nm tn t recs' vals c.
Proof.
  intros (m & ->) (ds & cur & E & Z & G & B). exists ds, cur. split; [exact E|]. split; [exact Z|]. split; [now apply col_gen_app|exact B].
Qed.
Lemma col_pl_grows nm t recs recs' vals c : grows recs recs' -> col_pl path nm tn t recs vals c -> col_pl path nm tn t recs' vals c.
Proof.
  intros G [H|(H1 & H2 & H3)]; [left; eapply col_p_grows; eauto|right].
  destruct G as (m & ->). split; [exact H1|]. split; [exact H2|now apply col_core_app].
Qed.
Lemma col_pl_used nm t recs vals c : names_ok nm tn (bs "TBasket") -> col_pl path nm tn t recs vals c -> used c <= cost nm tn t vals.
Proof.
  intros N [H|(-> & _ & H)]; [eapply col_p_used; eauto|].
  rewrite (col_used _ _ _ _ _ _ _ _ H). cbn [map fold_right]. now apply cost_nonneg.
Qed.
Lemma popen_plive recs k ss cols : rows_inv (popen recs) k ss cols -> rows_inv (plive recs) k ss cols.
Proof. intros H. eapply Forall2_weaken; [|exact H]. cbv beta. intros s c (X & Y). split; [left; exact X|exact Y]. Qed.

Lemma taken_cost nm t k it : names_ok nm tn (bs "TBasket") -> cost nm tn t (taken k it) <= cost nm tn t (somes it).
Proof. intros N. rewrite <- (somes_split k it). now apply cost_app. Qed.

Lemma useds_le recs k ss cols : Forall (cspec_ok tn) ss -> rows_inv (plive recs) k ss cols -> useds cols <= sumz scost ss.
Proof.
  intros W H. induction H as [|s [c d] ss cols (X & _ & _) _ IH]; [reflexivity|].
  inversion W as [|? ? (_ & N & _) W']; subst. specialize (IH W').
  unfold useds, sumz in *. cbn [map fold_right fst] in *. pose proof (col_pl_used _ _ _ _ _ N X).
  pose proof (taken_cost (cs_name s) (cs_ty s) k (cs_it s) N). unfold scost at 1. lia.
Qed.
Lemma sumz_scost_nonneg ss : Forall (cspec_ok tn) ss -> 0 <= sumz scost ss.
Proof.
  induction 1 as [|s ss (_ & N & _) _ IH]; [reflexivity|]. unfold sumz in *. cbn [map fold_right].
  pose proof (cost_nonneg (cs_name s) tn (cs_ty s) N (somes (cs_it s))). unfold scost at 1. lia.
Qed.

Lemma ent_cost nm t v a b : names_ok nm tn (bs "TBasket") -> zlen (ent t v) <= cost nm tn t (a ++ v :: b).
Proof.
  intros N. unfold cost. rewrite ents_app, !zlen_app, zlen_cons. change (ents t (v :: b)) with (ent t v ++ ents t b). rewrite zlen_app.
  pose proof (bkl_bounds _ _ N). pose proof (zlen_nonneg (ents t a)). pose proof (zlen_nonneg (ents t b)).
  pose proof (zlen_nonneg (ent t v)). pose proof (zlen_nonneg a). pose proof (zlen_nonneg b).
  pose proof (Z.div_pos (zlen (ents t a) + (zlen (ent t v) + zlen (ents t b))) 16384 ltac:(lia) ltac:(lia)). nia.
Qed.

Lemma write_row_fwd keys sis ncb k ss : Forall (cspec_ok tn) ss -> Forall sroom ss -> forall recs cols tot f,
  lay path keys sis recs f -> rows_inv (plive recs) k ss cols ->
  E0 path + rsize recs - useds cols + sumz scost ss <= kStartBigFile ->
  0 <= tot -> tot + sumz scost ss <= kStartBigFile ->
  exists f' cols' tot' ev recs', write_row tn ncb cols tot f = (f', Ok (cols', tot', ev)) /\
    grows recs recs' /\ lay path keys sis recs' f' /\ rows_inv (popen recs') (S k) ss cols' /\
    rsize recs' - useds cols' = rsize recs - useds cols.
Proof using P.
  intros W. induction W as [|s ss (C & N & W) WS IH]; intros SR recs cols tot f L R RS T0 T1; inversion R; subst; cbn [write_row].
  - exists f, [], tot, [], recs. split; [reflexivity|]. split; [apply grows_refl|]. split; [exact L|]. split; [constructor|reflexivity].
  - rename l' into cols. destruct y as [c d]. cbn [fst snd] in *. destruct H1 as (HL & HI & HD).
    inversion SR as [|? ? (RM & DL) SR']; subst.
    pose proof (useds_le _ _ _ _ WS H3) as UL.
    pose proof (sumz_scost_nonneg ss WS) as SN.
    unfold useds, sumz in RS, T1, UL, SN |- *. cbn [map fold_right fst] in RS, T1 |- *.
    fold (sumz scost ss) in *. set (ur := fold_right Z.add 0 (map (fun cd : wcol * bool => used (fst cd)) cols)) in *.
    pose proof (col_pl_used _ _ _ _ _ N HL) as UC. pose proof (cost_nonneg (cs_name s) tn (cs_ty s) N (somes (cs_it s))) as SN1. fold (scost s) in SN1.
    pose proof (taken_cost (cs_name s) (cs_ty s) k (cs_it s) N) as TC.
    pose proof (taken_cost (cs_name s) (cs_ty s) (S k) (cs_it s) N) as TC1. fold (scost s) in TC, TC1.
    assert (ES : somes (cs_it s) = taken k (cs_it s) ++ opt_list (hd None (wc_it c)) ++ somes (skipn (S k) (cs_it s))).
    { rewrite HI, <- tl_skipn, <- somes_hd. unfold taken. now rewrite somes_split. }
    assert (ET : taken k (cs_it s) ++ opt_list (hd None (wc_it c)) = taken (S k) (cs_it s)).
    { rewrite taken_S, HI, hd_skipn. reflexivity. }
    assert (WI : Forall (fun o => forall v, o = Some v -> wt (cs_ty s) v) (wc_it c)) by (rewrite HI; now apply Forall_skipn).
    destruct (wcol_write_fwd path (cs_name s) tn (cs_ty s) C P N keys sis recs _ c (somes (skipn (S k) (cs_it s))) f L HL WI)
      as (f1 & c1 & r & recs1 & E1 & ER & G1 & L1 & O1 & I1 & U1).
    { rewrite <- ES. exact RM. } { rewrite <- ES. exact DL. } { rewrite ET. lia. } { lia. }
    rewrite ET in O1. pose proof (col_p_used _ _ _ _ N _ _ _ O1) as UC1.
    assert (NL : match r with Some n => 0 <= n <= scost s | None => True end).
    { subst r. destruct (hd None (wc_it c)) as [v|]; cbn [option_map]; [|exact I]. split; [apply zlen_nonneg|].
      unfold scost. rewrite ES. cbn [opt_list app]. now apply ent_cost. }
    set (tot1 := tot + match r with Some n => n | None => 0 end).
    assert (E2 : (match r with None => fret tot | Some n => flift (add_i32 tot n) end) f1 = (f1, Ok tot1)).
    { unfold tot1. destruct r; [|rewrite Z.add_0_r; reflexivity]. unfold flift. rewrite add_i32_ok; [reflexivity|].
      unfold kStartBigFile in *. red. lia. }
    assert (R' : rows_inv (plive recs1) k ss cols).
    { eapply Forall2_weaken; [|exact H3]. cbv beta. intros a b (X1 & X2 & X3). split; [eapply col_pl_grows; eauto|auto]. }
    destruct (IH SR' recs1 cols tot1 f1 L1 R') as (f2 & cols2 & tot2 & ev2 & recs2 & E3 & G2 & L2 & R2 & U2).
    { unfold useds, sumz at 1. fold ur. lia. }
    { unfold tot1. destruct r; lia. } { unfold tot1. destruct r; lia. }
    eexists f2, _, tot2, _, recs2. split; [|split; [eapply grows_trans; eauto|split; [exact L2|split]]].
    + unfold fbind at 1. rewrite E1. cbn [fst snd]. unfold fbind at 1. rewrite E2. unfold fbind at 1. rewrite E3. reflexivity.
    + constructor; [|exact R2]. cbn [fst snd]. split; [|split].
      * eapply col_p_grows; [exact G2|]. exact O1.
      * rewrite I1, HI. apply tl_skipn.
      * rewrite ended_S. subst r. rewrite HI, hd_skipn. destruct (nth k (cs_it s) None); cbn [option_map is_none].
        -- now rewrite orb_false_r.
        -- now rewrite orb_true_r.
    + cbn [map fold_right fst]. unfold useds, sumz in U2. fold ur in U2. lia.
Qed.

(** Every provider has ended once it has been asked as often as it has answers, and once more. *)
Lemma ended_len k it : (length it < k)%nat -> ended k it = true.
Proof. revert k; induction it as [|[v|] it IH]; intros [|k] H; cbn [length] in H; try lia; cbn [ended]; auto. apply IH. lia. Qed.

Definition longest (ss : list cspec) : nat := fold_right Nat.max 0%nat (map (fun s => length (cs_it s)) ss).
Lemma all_ended_len k ss : (longest ss < k)%nat -> all_ended k ss = true.
Proof.
  unfold longest, all_ended. induction ss as [|s ss IH]; intros H; [reflexivity|]. cbn [map fold_right forallb] in *.
  rewrite ended_len, IH by lia. reflexivity.
Qed.

Lemma write_rows_fwd keys sis ncb ss : Forall (cspec_ok tn) ss -> Forall sroom ss -> forall fuel k recs t cols ev f,
  (longest ss < fuel + k)%nat -> (fuel <> 0)%nat ->
  lay path keys sis recs f -> rows_inv (plive recs) k ss cols ->
  E0 path + rsize recs - useds cols + sumz scost ss <= kStartBigFile -> sumz scost ss <= kStartBigFile ->
  exists f' t' cols' ev' recs' k', write_rows fuel tn ncb t cols ev f = (f', Ok (t', cols', ev')) /\
    grows recs recs' /\ lay path keys sis recs' f' /\ rows_inv (popen recs') k' ss cols' /\
    rsize recs' - useds cols' = rsize recs - useds cols.
Proof using P.
  intros W SR. induction fuel as [|fuel IH]; intros k recs t cols ev f LF F0 L R RS SC; [lia|]. cbn [write_rows].
  destruct (write_row_fwd keys sis ncb k ss W SR recs cols 0 f L R RS ltac:(lia) ltac:(lia))
    as (f1 & cols1 & tot1 & ev1 & recs1 & E1 & G1 & L1 & R1 & U1).
  unfold fbind at 1. rewrite E1. cbn [fst snd]. rewrite (rows_inv_ended _ _ _ _ R1).
  destruct (all_ended (S k) ss) eqn:EN.
  - eexists f1, _, cols1, _, recs1, (S k). split; [reflexivity|]. auto.
  - destruct fuel as [|fuel]; [rewrite all_ended_len in EN by lia; discriminate|].
    destruct (IH (S k) recs1 (t_add t tot1 1) cols1 (ev ++ notify ncb EvBefore ++ ev1) f1 ltac:(lia) ltac:(lia) L1 (popen_plive _ _ _ _ R1) ltac:(lia) SC)
      as (f2 & t2 & cols2 & ev2 & recs2 & k2 & E2 & G2 & L2 & R2 & U2).
    exists f2, t2, cols2, ev2, recs2, k2. split; [exact E2|]. split; [eapply grows_trans; eauto|]. split; [exact L2|]. split; [exact R2|lia].
Qed.

(** ** Flushing at the end *)
Definition nbaskets (s : cspec) : Z := zlen (ents (cs_ty s) (somes (cs_it s))) / 16384 + 1.
Definition fdone (recs : list bytes) (s : cspec) (c : wcol) : Prop :=
  exists ds n, col_core path (cs_name s) tn (cs_ty s) recs ds n c /\ (1 <= length ds)%nat /\ zlen ds <= nbaskets s /\ zlen ds <= 32767.
Lemma fdone_grows recs recs' s c : grows recs recs' -> fdone recs s c -> fdone recs' s c.
Proof. intros (m & ->) (ds & n & H1 & H2). exists ds, n. split; [now apply col_core_app|exact H2]. Qed.

Lemma flush_all_fwd keys sis k ss : Forall (cspec_ok tn) ss -> forall recs cols f,
  lay path keys sis recs f -> rows_inv (popen recs) k ss cols ->
  E0 path + rsize recs - useds cols + sumz scost ss <= kStartBigFile ->
  exists f' cols' recs', flush_all (map fst cols) f = (f', Ok cols') /\ grows recs recs' /\ lay path keys sis recs' f' /\
    Forall2 (fdone recs') ss cols' /\ rsize recs' <= rsize recs - useds cols + sumz scost ss.
Proof using P.
  intros W. induction W as [|s ss (C & N & W) WS IH]; intros recs cols f L R RS; inversion R; subst; cbn [map flush_all].
  - exists f, [], recs. split; [reflexivity|]. split; [apply grows_refl|]. split; [exact L|]. split; [constructor|].
    unfold useds, sumz. cbn [map fold_right]. lia.
  - rename l' into cols. destruct y as [c d]. cbn [fst snd] in *. destruct H1 as (HL & HI & HD). clear HI HD.
    pose proof (useds_le _ _ _ _ WS (popen_plive _ _ _ _ H3)) as UL.
    unfold useds, sumz in RS, UL |- *. cbn [map fold_right fst] in RS |- *.
    fold (sumz scost ss) in *. set (ur := fold_right Z.add 0 (map (fun cd : wcol * bool => used (fst cd)) cols)) in *.
    pose proof (taken_cost (cs_name s) (cs_ty s) k (cs_it s) N) as TC. fold (scost s) in TC.
    destruct HL as (ds & cur & EV & HZ & G & (B & _) & _).
    pose proof (room_le (cs_name s) tn (cs_ty s) N ds cur B) as RL. rewrite <- EV in RL.
    pose proof G as (GC & HD & _). rewrite <- (col_used _ _ _ _ _ _ _ _ GC) in RL.
    destruct (flush_fwd path (cs_name s) tn (cs_ty s) C P N recs ds cur c f keys sis L G ltac:(lia))
      as (f1 & c1 & ns & E1 & L1 & I1 & CC & RR).
    set (d0 := mkD _ ns cur) in CC. set (b := brec _ _ _ _ _ _ _) in *.
    assert (R' : rows_inv (popen (recs ++ [b])) k ss cols).
    { eapply Forall2_weaken; [|exact H3]. cbv beta. intros a x (X1 & X2). split; [|exact X2].
      eapply col_p_grows; [eexists; reflexivity|exact X1]. }
    destruct (IH (recs ++ [b]) cols f1 L1 R') as (f2 & cols2 & recs2 & E2 & G2 & L2 & F2 & U2).
    { unfold useds, sumz at 1. fold ur. lia. }
    unfold useds, sumz at 1 in U2. fold ur in U2.
    exists f2, (c1 :: cols2), recs2. split; [|split; [eapply grows_trans; [eexists; reflexivity|exact G2]|split; [exact L2|split; [|lia]]]].
    + unfold fbind at 1. rewrite E1. unfold fbind at 1. rewrite E2. reflexivity.
    + constructor; [|exact F2]. eapply fdone_grows; [exact G2|].
      exists (ds ++ [d0]), (zlen (d_all ds ++ cur)). split; [exact CC|].
      rewrite zlen_app, zlen_cons, (@zlen_nil wdone), app_length. cbn [length].
      split; [lia|]. split; [|lia]. unfold nbaskets.
      destruct (dones_sum (cs_name s) tn (cs_ty s) ds B) as [DS _].
      assert (16384 * zlen ds <= zlen (ents (cs_ty s) (somes (cs_it s)))).
      { rewrite <- (somes_split k (cs_it s)). fold (taken k (cs_it s)). rewrite EV, !ents_app, !zlen_app.
        pose proof (zlen_nonneg (ents (cs_ty s) cur)). pose proof (zlen_nonneg (ents (cs_ty s) (somes (skipn k (cs_it s))))). lia. }
      assert (zlen ds <= zlen (ents (cs_ty s) (somes (cs_it s))) / 16384) by (apply Z.div_le_lower_bound; lia). lia.
Qed.
End Rows.
