(** Writing all the columns of a tree. *)
From Verif Require Export ColOps.

(** ** Providers *)

(** What a provider has given after [k] calls, and whether it has answered "no more"
    at least once. *)
Fixpoint somes {A} (l : list (option A)) : list A :=
  match l with [] => [] | Some a :: r => a :: somes r | None :: r => somes r end.
Definition taken (k : nat) (it : list (option val)) : list val := somes (firstn k it).
Fixpoint ended (k : nat) (it : list (option val)) : bool :=
  match k with
  | O => false
  | S k' => match it with [] => true | None :: _ => true | Some _ :: r => ended k' r end
  end.
Definition opt_list {A} (o : option A) : list A := match o with Some a => [a] | None => [] end.
Definition is_none {A} (o : option A) : bool := match o with None => true | _ => false end.

Lemma hd_skipn {A} k (l : list (option A)) : hd None (skipn k l) = nth k l None.
Proof. revert l; induction k; intros [|a l]; cbn [skipn hd nth]; auto. Qed.
Lemma tl_skipn {A} k (l : list A) : tl (skipn k l) = skipn (S k) l.
Proof. revert l; induction k as [|k IH]; intros [|a l]; auto. cbn [skipn]. rewrite IH. destruct l; reflexivity. Qed.
Lemma taken_S k it : taken (S k) it = taken k it ++ opt_list (nth k it None).
Proof.
  unfold taken. revert it; induction k as [|k IH]; intros [|[v|] it]; cbn [firstn somes nth opt_list app]; auto.
  - cbn [firstn] in IH. rewrite <- IH. reflexivity.
  - cbn [firstn] in IH. rewrite <- IH. reflexivity.
Qed.
Lemma ended_S k it : ended (S k) it = ended k it || is_none (nth k it None).
Proof.
  revert it; induction k as [|k IH]; intros it.
  - destruct it as [|[v|] it]; reflexivity.
  - destruct it as [|[v|] it]; [reflexivity| |reflexivity].
    change (ended (S k) it = ended k it || is_none (nth k it None)). apply IH.
Qed.
Lemma ended_plain k l : ended k (map Some l) = (length l <? k)%nat.
Proof.
  revert k; induction l as [|a l IH]; intros [|k]; cbn [ended map length]; auto. rewrite IH. reflexivity.
Qed.
Lemma taken_plain k l : taken k (map Some l) = firstn k l.
Proof.
  unfold taken. rewrite firstn_map. induction (firstn k l); cbn [map somes]; congruence.
Qed.

Lemma Forall2_weaken {A B} (R R' : A -> B -> Prop) l m : (forall a b, R a b -> R' a b) -> Forall2 R l m -> Forall2 R' l m.
Proof. intros H. induction 1; constructor; auto. Qed.

(** ** One pass *)
Section Rows.
Variables (path tn : bytes).
Hypothesis P : path_ok path.

(** A column as it was given: name, type, provider. *)
Record cspec := mkCS { cs_name : bytes; cs_ty : ty; cs_it : list (option val) }.
Definition cspec_ok (s : cspec) : Prop :=
  col_ty (cs_ty s) /\ names_ok (cs_name s) tn (bs "TBasket") /\
  Forall (fun o => forall v, o = Some v -> wt (cs_ty s) v) (cs_it s).

(** Columns after [k] passes. *)
Definition rows_inv (Q : cspec -> list val -> wcol -> Prop) (k : nat) (ss : list cspec) (cols : list (wcol * bool)) : Prop :=
  Forall2 (fun s cd => Q s (taken k (cs_it s)) (fst cd) /\ wc_it (fst cd) = skipn k (cs_it s) /\
                       snd cd = ended k (cs_it s)) ss cols.
Definition live (recs : list bytes) (s : cspec) := col_live path (cs_name s) tn (cs_ty s) recs.
Definition opened (recs : list bytes) (s : cspec) := col_open path (cs_name s) tn (cs_ty s) recs.

Lemma col_open_grows nm t recs recs' vals c : grows recs recs' ->
  col_open path nm tn t recs vals c -> col_open path nm tn t recs' vals c.
Proof.
  intros (m & ->) (ds & cur & E & Z & G). exists ds, cur. split; [exact E|]. split; [exact Z|]. now apply col_gen_app.
Qed.
Lemma col_live_grows nm t recs recs' vals c : grows recs recs' ->
  col_live path nm tn t recs vals c -> col_live path nm tn t recs' vals c.
Proof.
  intros G [H|(H1 & H2 & H3)]; [left; eapply col_open_grows; eauto|right].
  destruct G as (m & ->). split; [exact H1|]. split; [exact H2|now apply col_core_app].
Qed.

Lemma col_live_name nm t recs vals c : col_live path nm tn t recs vals c -> wc_name c = nm.
Proof.
  unfold wc_name. intros [(ds & cur & _ & _ & (_ & _ & _ & (mb & tot & en & E & _) & _) & _)|(_ & _ & _ & _ & _ & (mb & tot & en & E & _) & _)];
    rewrite E; reflexivity.
Qed.

Definition row_events (ncb : nat) (ss : list cspec) : list (nat * event) :=
  flat_map (fun s => notify ncb (EvBranch (cs_name s))) ss.

Lemma Forall_skipn {A} (Q : A -> Prop) k l : Forall Q l -> Forall Q (skipn k l).
Proof. revert l; induction k; intros l H; cbn [skipn]; auto. destruct H; auto. Qed.

Lemma write_row_ok keys sis ncb k ss : Forall cspec_ok ss -> forall recs cols tot f f' cols' tot' ev,
  lay path keys sis recs f -> rows_inv (live recs) k ss cols -> is_i32 tot ->
  write_row tn ncb cols tot f = (f', Ok (cols', tot', ev)) -> zlen (f_disk f') <= kStartBigFile ->
  exists recs', grows recs recs' /\ lay path keys sis recs' f' /\ rows_inv (opened recs') (S k) ss cols' /\
    is_i32 tot' /\ ev = row_events ncb ss.
Proof using P.
  induction 1 as [|s ss (C & N & W) _ IH]; intros recs cols tot f f' cols' tot' ev L R T H D; inversion R; subst; cbn [write_row] in H.
  - injection H as <- <- <- <-. exists recs. split; [apply grows_refl|]. split; [exact L|]. split; [constructor|]. auto.
  - rename l' into cols. destruct y as [c d]. cbn [fst snd] in *. destruct H2 as (HL & HI & HD).
    cbn [write_row] in H.
    apply fbind_inv in H as (f1 & [c1 r] & H1 & H). cbn [fst snd] in H.
    apply fbind_inv in H as (f2 & tot1 & H2 & H).
    assert (f2 = f1 /\ is_i32 tot1) as [-> T1].
    { destruct r; [apply flift_inv in H2 as [-> H2]; apply add_i32_inv in H2 as [_ H2]; auto|injection H2 as <- <-; auto]. }
    apply fbind_inv in H as (f3 & [[r' t'] ev'] & H3 & H). injection H as <- <- <- <-.
    pose proof (mono_disk _ _ _ _ (mono_write_row _ _ _ _) H3).
    assert (WI : Forall (fun o => forall v, o = Some v -> wt (cs_ty s) v) (wc_it c)) by (rewrite HI; now apply Forall_skipn).
    destruct (wcol_write_ok path (cs_name s) tn (cs_ty s) C P N keys sis recs _ c f f1 c1 r L HL WI H1 ltac:(lia))
      as (recs1 & G1 & L1 & O1 & I1 & R1).
    assert (R' : rows_inv (live recs1) k ss cols).
    { eapply Forall2_weaken; [|exact H4]. cbv beta. intros a b (X1 & X2 & X3). split; [eapply col_live_grows; eauto|auto]. }
    destruct (IH recs1 cols tot1 f1 f3 r' t' ev' L1 R' T1 H3 D) as (recs2 & G2 & L2 & R2 & T2 & ->).
    exists recs2. split; [eapply grows_trans; eauto|]. split; [exact L2|]. split; [|split; [exact T2|]].
    + constructor; [|exact R2]. cbn [fst snd]. rewrite HI, hd_skipn in O1, R1. split; [|split].
      * rewrite taken_S. eapply col_open_grows; [exact G2|]. exact O1.
      * rewrite I1, HI. apply tl_skipn.
      * rewrite ended_S, HD. destruct r.
        -- destruct (nth k (cs_it s) None); [now rewrite orb_false_r|]. destruct R1 as [_ R1]. discriminate R1; reflexivity.
        -- destruct R1 as [R1 _]. rewrite R1 by reflexivity. now rewrite orb_true_r.
    + cbn [row_events flat_map]. rewrite (col_live_name _ _ _ _ _ HL). reflexivity.
Qed.

Lemma t_add_add t a b c d : t_add (t_add t a b) c d = t_add t (a + c) (b + d).
Proof. unfold t_add. cbn. now rewrite !Z.add_assoc. Qed.

Definition pass_events (ncb : nat) (ss : list cspec) : list (nat * event) := notify ncb EvBefore ++ row_events ncb ss.
Definition all_ended (k : nat) (ss : list cspec) : bool := forallb (fun s => ended k (cs_it s)) ss.

Lemma rows_inv_ended Q k ss cols : rows_inv Q k ss cols -> forallb snd cols = all_ended k ss.
Proof.
  intros H. induction H as [|s [c d] ss cols (_ & _ & E) _ IH]; [reflexivity|]. cbn [forallb snd all_ended] in *.
  rewrite E, IH. reflexivity.
Qed.
Lemma opened_live recs k ss cols : rows_inv (opened recs) k ss cols -> rows_inv (live recs) k ss cols.
Proof. intros H. eapply Forall2_weaken; [|exact H]. cbv beta. intros s c (X & Y). split; [left; exact X|exact Y]. Qed.

Lemma write_rows_ok keys sis ncb ss : Forall cspec_ok ss -> forall fuel k recs t cols ev f f' t' cols' ev',
  lay path keys sis recs f -> rows_inv (live recs) k ss cols ->
  write_rows fuel tn ncb t cols ev f = (f', Ok (t', cols', ev')) -> zlen (f_disk f') <= kStartBigFile ->
  exists m tot recs', grows recs recs' /\ lay path keys sis recs' f' /\
    rows_inv (opened recs') (k + S m) ss cols' /\
    all_ended (k + S m) ss = true /\ (forall j, (k < j < k + S m)%nat -> all_ended j ss = false) /\
    t' = t_add t tot (Z.of_nat m) /\ Z.abs tot <= (Z.of_nat m + 1) * 2147483648 /\
    ev' = ev ++ concat (repeat (pass_events ncb ss) (S m)).
Proof using P.
  intros W. induction fuel as [|fuel IH]; intros k recs t cols ev f f' t' cols' ev' L R H D; cbn [write_rows] in H; [discriminate|].
  apply fbind_inv in H as (f1 & [[c1 tot1] ev1] & H1 & H).
  assert (M : zlen (f_disk f1) <= zlen (f_disk f')).
  { eapply mono_disk; [|exact H]. mono. }
  destruct (write_row_ok keys sis ncb k ss W recs cols 0 f f1 c1 tot1 ev1 L R ltac:(red; lia) H1 ltac:(lia))
    as (recs1 & G1 & L1 & R1 & T1 & ->).
  rewrite (rows_inv_ended _ _ _ _ R1) in H. destruct (all_ended (S k) ss) eqn:E.
  - injection H as <- <- <- <-. exists 0%nat, tot1, recs1. rewrite Nat.add_1_r.
    split; [exact G1|]. split; [exact L1|]. split; [exact R1|]. split; [exact E|]. split; [lia|]. split; [reflexivity|].
    split; [red in T1; lia|]. cbn [repeat concat]. rewrite app_nil_r. reflexivity.
  - destruct (IH (S k) recs1 _ _ _ _ _ _ _ _ L1 (opened_live _ _ _ _ R1) H D)
      as (m & tot & recs2 & G2 & L2 & R2 & E2 & N2 & -> & T2 & ->).
    exists (S m), (tot1 + tot), recs2. replace (k + S (S m))%nat with (S k + S m)%nat by lia.
    split; [eapply grows_trans; eauto|]. split; [exact L2|]. split; [exact R2|]. split; [exact E2|]. split; [|split; [|split]].
    + intros j Hj. destruct (Nat.eq_dec j (S k)) as [->|Hne]; [exact E|]. apply N2. lia.
    + rewrite t_add_add. f_equal. lia.
    + red in T1. lia.
    + change (repeat (pass_events ncb ss) (S (S m))) with (pass_events ncb ss :: repeat (pass_events ncb ss) (S m)).
      rewrite concat_cons. set (X := concat _). unfold pass_events. rewrite <- !app_assoc. reflexivity.
Qed.

(** ** Flushing at the end *)
Definition finished (recs : list bytes) (s : cspec) (vals : list val) (c : wcol) : Prop :=
  exists ds, vals = d_all ds /\ zlen ds <= 32767 /\ (1 <= length ds)%nat /\
    col_core path (cs_name s) tn (cs_ty s) recs ds (zlen (d_all ds)) c.

Lemma finished_grows recs recs' s vals c : grows recs recs' -> finished recs s vals c -> finished recs' s vals c.
Proof. intros (m & ->) (ds & H1 & H2 & H3 & H4). exists ds. repeat (split; [assumption|]). now apply col_core_app. Qed.

Lemma flush_all_ok keys sis ss k : Forall cspec_ok ss -> forall recs cols f f' cols',
  lay path keys sis recs f -> rows_inv (opened recs) k ss cols ->
  flush_all (map fst cols) f = (f', Ok cols') -> zlen (f_disk f') <= kStartBigFile ->
  exists recs', grows recs recs' /\ lay path keys sis recs' f' /\
    Forall2 (fun s c => finished recs' s (taken k (cs_it s)) c) ss cols' /\ rsize recs + zlen ss <= rsize recs'.
Proof using P.
  induction 1 as [|s ss (C & N & W) _ IH]; intros recs cols f f' cols' L R H D; inversion R; subst; cbn [map flush_all] in H.
  - injection H as <- <-. exists recs. split; [apply grows_refl|]. split; [exact L|]. split; [constructor|rewrite zlen_nil; lia].
  - rename l' into cols. destruct y as [c d]. cbn [fst] in *. destruct H2 as ((ds & cur & EV & Z & G) & HI & HD).
    apply fbind_inv in H as (f1 & c1 & H1 & H). apply fbind_inv in H as (f2 & r & H2 & H). injection H as <- <-.
    pose proof (mono_disk _ _ _ _ (mono_flush_all _) H2).
    destruct (flush_ok path (cs_name s) tn (cs_ty s) recs ds cur c f f1 c1 keys sis C P N L G H1 ltac:(lia)) as (ns & L1 & _ & CC & HB).
    set (d0 := mkD _ ns cur) in CC. set (b := brec _ _ _ _ _ _ _) in *.
    assert (R' : rows_inv (opened (recs ++ [b])) k ss cols).
    { eapply Forall2_weaken; [|exact H4]. cbv beta. intros a x (X1 & X2). split; [|exact X2].
      eapply col_open_grows; [eexists; reflexivity|exact X1]. }
    destruct (IH _ _ _ _ _ L1 R' H2 D) as (recs2 & G2 & L2 & F2 & SZ).
    exists recs2. split; [eapply grows_trans; [eexists; reflexivity|exact G2]|]. split; [exact L2|].
    split; [|rewrite zlen_cons; rewrite rsize_snoc in SZ;
      assert (zlen b = bkl (cs_name s) tn + zlen (payload (cs_name s) tn (cs_ty s) cur));
      [pose proof (E0_pos path P); pose proof (rsize_nonneg recs); pose proof (zlen_nonneg ds); destruct G as (_ & HL & _);
       apply brec_len; [exact N|red; lia|lia|exact HB]
      |pose proof (bkl_bounds _ _ N); pose proof (zlen_nonneg (payload (cs_name s) tn (cs_ty s) cur)); lia]].
    constructor; [|exact F2]. eapply finished_grows; [exact G2|].
    exists (ds ++ [d0]). rewrite d_all_snoc. cbn [d_vals d0]. split; [exact EV|].
    destruct G as (_ & HL & _). rewrite zlen_app, zlen_cons, (@zlen_nil wdone), app_length. cbn [length].
    split; [lia|]. split; [lia|exact CC].
Qed.
End Rows.
