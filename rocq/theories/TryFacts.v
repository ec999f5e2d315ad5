(** Trees that are refused leave the layout of the file as it should be. *)
From Verif Require Import NoErr Refused.
From Verif Require Import FileLay TreeWrite TreeSession SessFacts FileFacts StreamerDb SpecTree SpecTry.

Lemma fbind_err {A B} (m : FM A) (k : A -> FM B) f f' e : fbind m k f = (f', Err e) ->
  m f = (f', Err e) \/ exists f1 a, m f = (f1, Ok a) /\ k a f1 = (f', Err e).
Proof.
  unfold fbind. destruct (m f) as [f1 [a|e0| | |]] eqn:E; intros H; try discriminate; [right; eauto|left].
  injection H as <- <-. reflexivity.
Qed.

Lemma lay_writing path keys sis recs f : lay path keys sis recs f -> for_writing f.
Proof. intros (log & -> & _). exists log. reflexivity. Qed.
Lemma lay_keys path keys sis recs f : lay path keys sis recs f -> d_keys (f_dir f) = keys.
Proof. intros (log & -> & _). reflexivity. Qed.

Lemma fne_not_err {A} (m : FM A) f f' e : fne m -> for_writing f -> m f = (f', Err e) -> False.
Proof. intros H W E. destruct (H f W) as [_ N]. rewrite E in N. now apply (N e). Qed.

Lemma scan_same name c ks : Forall (fun k => k_class k = c) ks -> forall cy, ne (scan_cycle name c ks cy).
Proof.
  induction 1 as [|k ks E _ IH]; intros cy; cbn [scan_cycle]; [discriminate|].
  destruct (negb (beqb (k_name k) name)); [apply IH|]. rewrite E.
  replace (beqb c c) with true by (symmetry; now apply beqb_eq). apply IH.
Qed.

Section DB.
Variable db : bytes -> Z -> option sinfo.

Lemma put_refuses name o f f' e : for_writing f -> Forall (fun k => k_class k = o_cls o) (d_keys (f_dir f)) -> wne (o_marsh o) ->
  put_obj db name o f = (f', Err e) -> existsb (Z.eqb 47) name = true /\ f' = f /\ e = ENameSlash.
Proof.
  intros W K M H. unfold put_obj in H. destruct (existsb (Z.eqb 47) name); [injection H as <- <-; auto|exfalso].
  apply fbind_err in H as [H|(f1 & ks & H1 & H)]; [discriminate|]. injection H1 as <- <-.
  apply fbind_err in H as [H|(f1 & c & H1 & H)].
  { injection H as _ H. now apply (scan_same _ _ _ K _ _ H). }
  apply flift_inv in H1 as [-> _]. revert H. apply fne_not_err; [|exact W]. fne. 
Qed.

Lemma tree_write_refused path keys sis recs f name ops w f' e :
  path_ok path -> lay path keys sis recs f -> Forall (fun k => k_class k = bs "TTree") keys ->
  Forall (cspec_ok name) (cols_of ops) ->
  build (wtree_new name) ops = Ok w -> tree_write db w f = (f', Err e) -> zlen (f_disk f') <= kStartBigFile ->
  existsb (Z.eqb 47) name = true /\ e = ENameSlash /\ exists recs', grows recs recs' /\ lay path keys sis recs' f'.
Proof.
  intros P L KC W HB H HD.
  assert (CT : Forall (fun s => col_ty (cs_ty s)) (cols_of ops)).
  { eapply Forall_impl; [|exact W]. intros s (X & _). exact X. }
  destruct (build_ok ops _ _ CT HB [] eq_refl) as (B1 & B2 & B3 & (l & B4 & B5) & cs & B6 & B7).
  cbn [wtree_new wt_tree wt_events wt_cbs wt_cols app] in *. rewrite Nat.add_0_l in B3.
  unfold tree_write in H. rewrite B1, B2, B3, B4, B6 in H. change (n_name (t_named (tree0 name))) with name in H.
  apply fbind_err in H as [H|(f1 & [[t' cols] ev] & H1 & H)].
  { exfalso. revert H. apply fne_not_err; [apply fne_rows|exact (lay_writing _ _ _ _ _ L)]. }
  apply fbind_err in H as [H|(f2 & cols' & _ & H)]; [|discriminate]. unfold tree_close in H.
  assert (W1 : for_writing f1).
  { pose proof (fne_rows (rows_fuel cs) name (cbs_of ops) (tree0 name) (map (fun c => (c, false)) cs) [] f (lay_writing _ _ _ _ _ L)) as [X _].
    rewrite H1 in X. exact X. }
  apply fbind_err in H as [H|(f3 & cols2 & HF & H)].
  { exfalso. revert H. apply fne_not_err; [apply fne_flush_all|exact W1]. }
  assert (W3 : for_writing f3).
  { pose proof (fne_flush_all (map fst cols) f1 W1) as [X _]. rewrite HF in X. exact X. }
  assert (D3 : zlen (f_disk f3) <= kStartBigFile).
  { eapply Z.le_trans; [|exact HD]. eapply mono_disk; [|exact H]. mono. }
  assert (D1 : zlen (f_disk f1) <= kStartBigFile).
  { eapply Z.le_trans; [|exact D3]. eapply mono_disk; [|exact HF]. mono. }
  destruct (write_rows_ok path name P keys sis _ _ W _ 0%nat recs _ _ _ _ _ _ _ _ L (fresh_live path name recs _ _ B7) H1 D1)
    as (m & tot & recs1 & G1 & L1 & R1 & E1 & N1 & -> & T1 & ->).
  destruct (flush_all_ok path name P keys sis _ _ W _ _ _ _ _ L1 R1 HF D3) as (recs2 & G2 & L2 & F2 & SZ).
  change (n_name (t_named (t_add (tree0 name) tot (Z.of_nat m)))) with name in H.
  apply fbind_err in H as [H|(f4 & [] & HP & H)].
  - destruct (put_refuses name (tree_obj (t_add (tree0 name) tot (Z.of_nat m)) cols2) _ _ _ W3 ltac:(rewrite (lay_keys _ _ _ _ _ L2); exact KC) (wne_tree _) H) as (SL & EF & ->).
    subst f'. split; [exact SL|]. split; [reflexivity|]. exists recs2. split; [eapply grows_trans; [exact G1|exact G2]|exact L2].
  - exfalso.
    assert (W4 : for_writing f4).
    { pose proof (mono_put db name (tree_obj (t_add (tree0 name) tot (Z.of_nat m)) cols2) f3) as X. rewrite HP in X. cbn [fst] in X.
      destruct W3 as (log & E). rewrite E in X. destruct X as (l' & X). eexists. exact X. }
    revert H. apply fne_not_err; [|exact W4]. fne.
Qed.

Lemma write_one_refused path ps es keys sis recs f p f' e : path_ok path -> sess db path ps es keys sis recs f -> tprog_ok p ->
  write_one db p f = (f', Err e) -> zlen (f_disk f') <= kStartBigFile ->
  existsb (Z.eqb 47) (tp_name p) = true /\ e = ENameSlash /\ exists recs', sess db path ps es keys sis recs' f'.
Proof.
  intros P S (N & W) H HD. unfold write_one in H.
  apply fbind_err in H as [H|(f1 & w & H1 & H)]; [injection H as _ H; exfalso; now apply (ne_build _ _ _ H)|].
  apply flift_inv in H1 as [-> H1]. apply fbind_err in H as [H|(f1 & w' & _ & H)]; [|discriminate].
  assert (KC : Forall (fun k => k_class k = bs "TTree") keys).
  { pose proof (se_st _ _ _ _ _ _ _ _ S) as ST. clear - ST. induction ST as [|x k xs ks X _ IH]; constructor; [|exact IH].
    now apply stored_name in X. }
  destruct (tree_write_refused path keys sis recs f (tp_name p) (tp_ops p) w f' e P (se_lay _ _ _ _ _ _ _ _ S) KC W H1 H HD)
    as (SL & -> & recs' & G & L).
  split; [exact SL|]. split; [reflexivity|]. exists recs'. destruct S as [S1 S2 S3 S4 S5 S6 S7 S8]. constructor; auto.
  eapply Forall2_weaken; [|exact S2]. cbv beta. intros a b. now apply stored_grows.
Qed.
End DB.

Lemma mono_try t : mono (try_table t).
Proof.
  intros f. pose proof (mono_write_one real_db (calls t) f) as M. unfold try_table.
  destruct (write_one real_db (calls t) f) as [f' []]; exact M.
Qed.
Lemma mono_tries ts : mono (try_tables ts).
Proof. induction ts; cbn [try_tables]; [apply mono_ret|]. apply mono_bind; [apply mono_try|intros]. apply mono_bind; [exact IHts|intros; apply mono_ret]. Qed.

(** The answers, as far as acceptance goes. *)
Definition outcome (t : table) (o : res (list (nat * event))) : Prop :=
  if existsb (Z.eqb 47) (tb_name t) then o = Err ENameSlash else exists es, o = Ok es.
Fixpoint goods {A} (os : list (res A)) : list A :=
  match os with [] => [] | Ok a :: r => a :: goods r | _ :: r => goods r end.

Lemma try_tables_ok path ts' : path_ok path -> Forall table_ok ts' -> forall ts es keys sis recs f f' os,
  sess real_db path (map calls ts) es keys sis recs f ->
  try_tables ts' f = (f', Ok os) -> zlen (f_disk f') <= kStartBigFile ->
  Forall2 outcome ts' os /\
  exists keys' sis' recs', sess real_db path (map calls (ts ++ accepted ts')) (es ++ goods os) keys' sis' recs' f'.
Proof.
  intros P. induction 1 as [|t ts' T _ IH]; intros ts es keys sis recs f f' os S H D; cbn [try_tables] in H.
  - injection H as <- <-. split; [constructor|]. exists keys, sis, recs. cbn [accepted filter goods]. rewrite !app_nil_r. exact S.
  - apply fbind_inv in H as (f1 & o & H1 & H). apply fbind_inv in H as (f2 & os2 & H2 & H). injection H as <- <-.
    assert (D1 : zlen (f_disk f1) <= kStartBigFile).
    { eapply Z.le_trans; [|exact D]. eapply mono_disk; [|exact H2]. apply mono_tries. }
    unfold try_table in H1. destruct (write_one real_db (calls t) f) as [f1' r] eqn:E.
    unfold accepted. cbn [filter]. fold (accepted ts').
    destruct r as [es1|e| | |]; try discriminate; injection H1 as -> <-.
    + assert (SL : existsb (Z.eqb 47) (tb_name t) = false).
      { destruct (existsb (Z.eqb 47) (tb_name t)) eqn:X; [exfalso|reflexivity].
        apply existsb_exists in X as (c & X & Y). apply Z.eqb_eq in Y as <-.
        destruct (tree_slash real_db (calls t) f X) as [_ Z]. apply (Z es1). rewrite E. reflexivity. }
      rewrite SL. cbn [negb].
      destruct (write_one_ok real_db _ _ _ _ _ _ _ _ _ _ P S (table_tprog _ T) E D1) as (k1 & s1 & r1 & S1 & _).
      change (map calls ts ++ [calls t]) with (map calls ts ++ map calls [t]) in S1. rewrite <- map_app in S1.
      destruct (IH _ _ _ _ _ _ _ _ S1 H2 D) as (O2 & k2 & s2 & r2 & S2).
      split; [constructor; [unfold outcome; rewrite SL; now exists es1|exact O2]|]. exists k2, s2, r2. rewrite <- !app_assoc in S2. exact S2.
    + destruct (write_one_refused real_db _ _ _ _ _ _ _ _ _ _ P S (table_tprog _ T) E D1) as (SL & -> & r1 & S1).
      change (tp_name (calls t)) with (tb_name t) in SL. rewrite SL. cbn [negb].
      destruct (IH _ _ _ _ _ _ _ _ S1 H2 D) as (O2 & k2 & s2 & r2 & S2).
      split; [constructor; [unfold outcome; rewrite SL; reflexivity|exact O2]|]. exists k2, s2, r2. exact S2.
Qed.

Lemma attempted_closed path ts os f : attempted path ts os f ->
  Forall2 outcome ts os /\ exists keys sbuf recs rest, closed path (accepted ts) (goods os) f keys sbuf recs rest.
Proof.
  intros (U & T & N & H & HD). destruct (user_path_ok path U) as [P _]. unfold attempt in H. rewrite (FileLay.create_ok path P) in H.
  apply fbind_inv in H as (f0 & [] & H0 & H). apply flift_inv in H0 as [-> _].
  apply fbind_inv in H as (f1 & os1 & H1 & H). apply fbind_inv in H as (f2 & [] & H2 & H). injection H as <- <-.
  assert (D1 : zlen (f_disk f1) <= kStartBigFile).
  { eapply Z.le_trans; [|exact HD]. eapply mono_disk; [|exact H2]. mono. }
  destruct (try_tables_ok path ts P T [] [] [] [] [] _ _ _ (sess_create real_db path P) H1 D1)
    as (O & keys & sis & recs & S).
  split; [exact O|]. cbn [app] in S.
  assert (FW : few (map tp_name (map calls (accepted ts)))) by (rewrite map_map; exact N).
  destruct (sess_closed real_db _ _ _ _ _ _ _ _ real_db_ok P FW S H2 HD) as (log & sis' & sbuf & C).
  assert (TA : Forall table_ok (accepted ts)).
  { apply Forall_forall. intros t I. apply filter_In in I as [I _]. rewrite Forall_forall in T. now apply T. }
  exact (session_is_closed _ _ _ _ _ _ _ _ _ _ U TA C).
Qed.

Lemma outcome_answer ts os : Forall2 outcome ts os -> goods os = map heard (accepted ts) -> Forall2 answer ts os.
Proof.
  induction 1 as [|t o ts os O F IH]; intros G; constructor; unfold outcome in O; unfold accepted in G; cbn [filter] in G; fold (accepted ts) in G;
    destruct (existsb (Z.eqb 47) (tb_name t)) eqn:E.
  - split; [intros _; exact O|]. intros X. exfalso. apply X. apply existsb_exists in E as (c & E & Y). apply Z.eqb_eq in Y as <-. exact E.
  - destruct O as (es & ->). cbn [negb goods map] in G. injection G as -> G. split; [|reflexivity].
    intros X. exfalso. assert (existsb (Z.eqb 47) (tb_name t) = true); [|congruence]. apply existsb_exists. exists 47. split; [exact X|reflexivity].
  - subst o. now apply IH.
  - destruct O as (es & ->). cbn [negb goods map] in G. injection G as -> G. now apply IH.
Qed.

Lemma tries_writes ts : forall f f' es, try_tables ts f = (f', Ok (map Ok es)) <-> write_trees real_db (map calls ts) f = (f', Ok es).
Proof.
  induction ts as [|t ts IH]; intros f f' es; cbn [try_tables write_trees map].
  - unfold fret. destruct es; cbn [map]; split; intros H; injection H as <-; try discriminate; reflexivity.
  - split; intros H.
    + apply fbind_inv in H as (f1 & o & H1 & H). apply fbind_inv in H as (f2 & os & H2 & H). injection H as <- H.
      destruct es as [|e es]; [discriminate|]. cbn [map] in H. injection H as -> ->. apply IH in H2.
      unfold try_table in H1. unfold fbind. destruct (write_one real_db (calls t) f) as [f3 []]; try discriminate.
      injection H1 as -> ->. rewrite H2. reflexivity.
    + apply fbind_inv in H as (f1 & o & H1 & H). apply fbind_inv in H as (f2 & os & H2 & H). injection H as <- <-.
      apply IH in H2. unfold fbind, try_table. rewrite H1, H2. reflexivity.
Qed.
Lemma attempt_session path ts es f : attempt path ts = (f, Ok (map Ok es)) <-> session real_db path (map calls ts) = (f, Ok es).
Proof.
  unfold attempt, session. destruct (create path) as [f0 r]. split; intros H.
  - apply fbind_inv in H as (f1 & [] & H0 & H). apply fbind_inv in H as (f2 & os & H1 & H). apply fbind_inv in H as (f3 & [] & H2 & H).
    injection H as <- ->. apply tries_writes in H1. unfold fbind. rewrite H0, H1, H2. reflexivity.
  - apply fbind_inv in H as (f1 & [] & H0 & H). apply fbind_inv in H as (f2 & os & H1 & H). apply fbind_inv in H as (f3 & [] & H2 & H).
    injection H as <- ->. apply tries_writes in H1. unfold fbind. rewrite H0, H1, H2. reflexivity.
Qed.
