(** Writing trees and closing the file succeed when there is room. *)
From Verif Require Export WLe TreeSession.

Lemma sim0_ok {X V} A (wm : W X) (rm : R V) v off : sim0 [] A wm rm v -> 0 <= off -> exists buf, wrun off wm = Ok buf.
Proof.
  intros H Ho. destruct (H (w_new off) I Ho) as (x & s' & w & E & _); [intros; reflexivity|intros b []|].
  unfold wrun. rewrite E. cbn. eauto.
Qed.

Lemma leaf_new_fwd name t : col_ty t -> exists l, leaf_new name t = Ok l.
Proof.
  intros C. destruct t as [p| |t|n t]; cbn [leaf_new].
  - destruct (prim_leaf p). eauto.
  - eauto.
  - eauto.
  - destruct t as [p| | |]; cbn [col_ty] in C; try contradiction. rewrite to_i32_id by (red; lia).
    destruct (Z.eqb_spec (Z.of_nat n) 0); [lia|]. destruct (prim_leaf p). destruct (Z.ltb_spec (Z.of_nat n) 0); [lia|]. eauto.
Qed.
Lemma wcol_new_fwd name t it : col_ty t -> exists r, wcol_new name t it = Ok r.
Proof.
  intros C. unfold wcol_new. destruct (leaf_new_fwd name t C) as (l & ->). cbn [rbind].
  destruct t as [p| |t|n t]; eauto. destruct t as [p| | |]; cbn [col_ty] in C; try contradiction.
  cbn [vec_sinfo]. rewrite vec_class by exact C. destruct p; try congruence; cbn [enum_of_prim rbind]; eauto.
Qed.
Lemma build_fwd ops : forall t l, Forall (fun s => col_ty (cs_ty s)) (cols_of ops) -> wt_sinfos t = Some l ->
  exists w, build t ops = Ok w.
Proof.
  induction ops as [|[name ty' it|] ops IH]; intros t l C H; cbn [build cols_of] in *; [eauto| |].
  - inversion C as [|? ? C1 C2]; subst. cbn [cs_ty] in C1. destruct (wcol_new_fwd name ty' it C1) as ([c sis] & E).
    cbn [build_step]. unfold new_branch. rewrite E. cbn [rbind]. rewrite H. cbn [rbind]. eapply IH; [exact C2|reflexivity].
  - cbn [build_step rbind]. eapply IH; [exact C|exact H].
Qed.

Lemma scan_cycle_fwd name class ks : Forall (fun k => k_class k = class) ks -> forall c, exists c', scan_cycle name class ks c = Ok c'.
Proof.
  induction 1 as [|k ks K _ IH]; intros c; cbn [scan_cycle]; [eauto|].
  destruct (negb (beqb (k_name k) name)); [apply IH|].
  rewrite K, (proj2 (beqb_eq _ _) eq_refl). cbn [negb]. apply IH.
Qed.

Lemma fresh_plive path tn recs ss cs : Forall2 fresh ss cs ->
  rows_inv (plive path tn recs) 0 ss (map (fun c => (c, false)) cs) /\ useds (map (fun c => (c, false)) cs) = 0.
Proof.
  induction 1 as [|s c ss cs (H1 & H2 & H3 & _) _ [IH1 IH2]]; [split; [constructor|reflexivity]|]. split.
  - constructor; [|exact IH1]. cbn [fst snd]. split; [|split; [exact H1|reflexivity]]. right. cbn [taken firstn somes].
    split; [reflexivity|]. split; [exact H2|apply H3].
  - unfold useds, sumz in *. cbn [map fold_right fst]. rewrite IH2.
    rewrite (col_used path (cs_name s) tn (cs_ty s) recs [] 0 c (H3 path tn recs)). reflexivity.
Qed.

Lemma rows_fuel_longest ss cs : Forall2 fresh ss cs -> rows_fuel cs = S (longest ss).
Proof.
  intros H. unfold rows_fuel, longest. f_equal. induction H as [|s c ss cs (H1 & _) _ IH]; [reflexivity|].
  cbn [map fold_right]. rewrite IH, H1. reflexivity.
Qed.

Lemma sumz_nonneg {A} (g : A -> Z) : (forall s, 0 <= g s) -> forall l, 0 <= sumz g l.
Proof. intros H l. unfold sumz. induction l as [|a l IH]; [reflexivity|]. cbn [map fold_right]. pose proof (H a). lia. Qed.

Lemma tree_cost_nonneg name ss : 0 <= tree_cost name ss.
Proof.
  unfold tree_cost. pose proof (zlen_nonneg name).
    pose proof (sumz_nonneg (fun s => leaf_cost (cs_name s)) ltac:(intros s; unfold leaf_cost; pose proof (zlen_nonneg (cs_name s)); lia) ss).
    pose proof (sumz_nonneg (fun s => branch_cost (cs_name s) (nbaskets s)) ltac:(intros s; unfold branch_cost, nbaskets; pose proof (zlen_nonneg (cs_name s));
      pose proof (Z.div_pos (zlen (ents (cs_ty s) (somes (cs_it s)))) 16384 (zlen_nonneg _) ltac:(lia)); lia) ss).
    lia.
Qed.

Definition data_cost (tn : bytes) (ss : list cspec) : Z := sumz (scost tn) ss.
Definition one_cost (tn : bytes) (ss : list cspec) : Z :=
  data_cost tn ss + key_len_for tn [] (bs "TTree") false + tree_cost tn ss.

Section Write.
Variable db : bytes -> Z -> option sinfo.

(** The class descriptions that writing trees adds. *)
Definition writer_si (s : sinfo) : Prop := db (bs "TTree") 20 = Some s \/ vec_si s.

Lemma tree_write_fwd path keys sis recs f name ops w :
  path_ok path -> lay path keys sis recs f ->
  Forall (fun k => k_cycle k <= 32767) keys -> Forall (fun k => k_class k = bs "TTree") keys ->
  names_ok name [] (bs "TTree") -> Forall (cspec_ok name) (cols_of ops) -> Forall sroom (cols_of ops) ->
  existsb (Z.eqb 47) name = false -> zlen (cols_of ops) < 2 ^ 31 ->
  db (bs "TTree") 20 <> None ->
  build (wtree_new name) ops = Ok w ->
  E0 path + rsize recs + one_cost name (cols_of ops) <= kStartBigFile ->
  exists f' w', tree_write db w f = (f', Ok w') /\ fh_end (f_hdr f') <= E0 path + rsize recs + one_cost name (cols_of ops) /\
    (Forall writer_si sis -> Forall writer_si (f_sinfos f')) /\ zlen (f_disk f') <= kStartBigFile.
Proof.
  intros P L CY CC NN W SR SL NC HDB HB HE. set (ss := cols_of ops) in *.
  assert (CT : Forall (fun s => col_ty (cs_ty s)) ss).
  { eapply Forall_impl; [|exact W]. intros s (X & _). exact X. }
  destruct (build_ok ops _ _ CT HB [] eq_refl) as (B1 & B2 & B3 & (l & B4 & B5) & cs & B6 & B7). fold ss in B7.
  cbn [wtree_new wt_tree wt_events wt_cbs wt_cols app] in *. rewrite Nat.add_0_l in B3.
  pose proof (sumz_scost_nonneg name ss W) as SN. fold (data_cost name ss) in SN.
  pose proof (key_len_pos _ _ _ NN) as KL. set (kl := key_len_for name [] (bs "TTree") false) in *.
  pose proof (tree_cost_nonneg name ss) as TC.
  unfold one_cost in HE |- *. fold kl in HE |- *.
  pose proof (E0_pos path P) as HE0. pose proof (rsize_nonneg recs) as HR0.
  destruct (fresh_plive path name recs _ _ B7) as (FP & FU).
  destruct (write_rows_fwd path name P keys sis (cbs_of ops) ss W SR (rows_fuel cs) 0%nat recs (tree0 name) _ [] f
    ltac:(rewrite (rows_fuel_longest _ _ B7); lia) ltac:(rewrite (rows_fuel_longest _ _ B7); lia) L FP
    ltac:(rewrite FU; unfold data_cost in *; lia) ltac:(unfold data_cost in *; lia))
    as (f1 & t' & cols & ev & recs1 & k1 & H1 & G1 & L1 & R1 & U1).
  rewrite FU in U1. unfold data_cost in *.
  destruct (flush_all_fwd path name P keys sis k1 ss W recs1 cols f1 L1 R1 ltac:(lia)) as (f3 & cols2 & recs3 & HF & G3 & L3 & F3 & U3).
  assert (D3 : zlen (f_disk f3) <= kStartBigFile) by (eapply lay_len; [exact P|exact L3|lia]).
  assert (D1 : zlen (f_disk f1) <= kStartBigFile).
  { eapply Z.le_trans; [|exact D3]. eapply mono_disk; [|exact HF]. mono. }
  destruct (write_rows_ok path name P keys sis _ _ W _ 0%nat recs _ _ _ _ _ _ _ _ L (fresh_live path name recs _ _ B7) H1 D1)
    as (m & tot & recs1' & G1' & L1' & R1' & E1 & N1 & -> & T1 & ->).
  rewrite Nat.add_0_l in *.
  destruct (flush_all_ok path name P keys sis _ _ W _ _ _ _ _ L1' R1' HF D3) as (recs2 & G2 & L2 & F2 & SZ).
  assert (RR : rsize recs2 = rsize recs3).
  { pose proof (lay_fhend _ _ _ _ _ L2). pose proof (lay_fhend _ _ _ _ _ L3). lia. }
  pose proof (rsize_nonneg recs1') as HR1. pose proof (rsize_nonneg recs2) as HR2.
  assert (ML : Z.of_nat m <= kStartBigFile).
  { destruct m as [|m]; [unfold kStartBigFile; lia|].
    assert (all_ended (S m) ss = false) as EF by (apply N1; lia).
    assert (exists s, In s ss /\ ended (S m) (cs_it s) = false) as (s & HS & ES).
    { clear - EF. induction ss as [|s r IH]; [discriminate|]. cbn [all_ended forallb] in EF.
      destruct (ended (S m) (cs_it s)) eqn:E; [|exists s; split; [left; reflexivity|exact E]].
      destruct (IH EF) as (s' & ? & ?). exists s'. split; [right; assumption|assumption]. }
    assert (exists c, finished path name recs2 s (taken (S (S m)) (cs_it s)) c) as (c & ds & X1 & X2 & X3 & X4).
    { clear - F2 HS. induction F2; [contradiction|]. destruct HS as [<-|HS]; eauto. }
    destruct X4 as (_ & _ & _ & _ & _ & X5). rewrite <- X1 in X5. pose proof (taken_le (S m) (cs_it s)).
    pose proof (ended_false_len _ _ ES). lia. }
  assert (TK : tree_ok (wtree_full (t_add (tree0 name) tot (Z.of_nat m)) cols2)).
  { destruct NN as (NN & _).
    eapply (tree_ok_written path name P recs2 ss (fun s => taken (S m) (cs_it s))); [exact W|lia|exact NN|exact F2| |lia|exact T1].
    pose proof (Forall2_zlen _ _ _ F2). lia. }
  set (T := wtree_full _ _) in TK.
  destruct (sim0_ok _ _ _ _ kl (tree_sim 0 T TK) ltac:(lia)) as (buf & MB).
  pose proof (wle_wrun _ _ _ _ (wle_tree path name recs3 ss cols2 tot (Z.of_nat m) W F3) MB) as BL.
  set (o := tree_obj (t_add (tree0 name) tot (Z.of_nat m)) cols2).
  assert (PN : put_name name o = name) by (unfold put_name; destruct name; reflexivity).
  destruct (scan_cycle_fwd name (bs "TTree") keys CC 0) as (c & SC).
  assert (CL : c <= 32767).
  { destruct (scan_cycle_ge _ _ _ _ _ SC) as (_ & _ & [->|(k' & K1 & K2 & <-)]); [lia|].
    rewrite Forall_forall in CY. now apply CY. }
  destruct (db (bs "TTree") 20) as [si|] eqn:ED; [|congruence].
  assert (PS : put_sis db sis o = Some (sis_add sis si)).
  { unfold put_sis. change (is_core_type (o_cls o)) with false. cbv iota.
    change (o_cls o) with (bs "TTree"). change (o_vers o) with 20. rewrite ED. reflexivity. }
  pose proof (put_fwd db path keys sis recs3 f3 name o c buf (sis_add sis si) P L3 SL) as PF. cbv zeta in PF. rewrite PN in PF.
  destruct (PF NN eq_refl SC ltac:(lia) PS MB) as (f4 & PE & L4 & KG).
  { change (key_len_for name (o_title o) (o_cls o) false) with kl. lia. }
  eexists _, _. split.
  - unfold tree_write. rewrite B1, B2, B3, B4, B6. change (n_name (t_named (tree0 name))) with name.
    unfold fbind at 1. rewrite H1. unfold fbind at 1. unfold tree_close.
    unfold fbind at 1. rewrite HF. change (n_name (t_named (t_add (tree0 name) tot (Z.of_nat m)))) with name.
    unfold fbind at 1. fold o. rewrite PE. unfold fbind at 1.
    destruct (fiter add_sinfo l f4) as [f5 x] eqn:EI. destruct (fiter_add_sinfo _ _ _ _ EI) as (-> & ->). reflexivity.
  - assert (SZ4 : fh_end (f_hdr f4) <= E0 path + rsize recs + (sumz (scost name) ss + kl + tree_cost name ss)).
    { rewrite (lay_fhend _ _ _ _ _ L4), rsize_snoc, zlen_app.
      destruct KG as (KG1 & _ & KG2). destruct (khdr_ok _ KG1) as (KL1 & _). rewrite KL1, <- KG2.
      change (o_title o) with (@nil Z). change (o_cls o) with (bs "TTree"). cbn [mk_key k_keylen]. fold kl. lia. }
    split; [cbn [f_set_sinfos f_hdr]; lia|]. split.
    + intros FS. cbn [f_set_sinfos f_sinfos]. rewrite (lay_sis _ _ _ _ _ L4). apply fold_sis_add_Forall; [|apply sis_add_Forall; [exact FS|left; exact ED]].
      eapply Forall_impl; [|exact B5]. intros a A. right. exact A.
    + change (f_disk (f_set_sinfos f4 (fold_left sis_add l (f_sinfos f4)))) with (f_disk f4).
      eapply lay_len; [exact P|exact L4|]. rewrite <- (lay_fhend _ _ _ _ _ L4). lia.
Qed.

Definition prog_room (p : tprog) : Prop :=
  Forall sroom (cols_of (tp_ops p)) /\ existsb (Z.eqb 47) (tp_name p) = false /\ zlen (cols_of (tp_ops p)) < 2 ^ 31.
Definition prog_cost (p : tprog) : Z := one_cost (tp_name p) (cols_of (tp_ops p)).

Lemma prog_cost_nonneg p : tprog_ok p -> 0 <= prog_cost p.
Proof.
  intros (N & W). unfold prog_cost, one_cost. pose proof (sumz_scost_nonneg _ _ W). unfold data_cost.
  pose proof (key_len_pos _ _ _ N). pose proof (tree_cost_nonneg (tp_name p) (cols_of (tp_ops p))). lia.
Qed.

Lemma write_one_fwd path ps es keys sis recs f p : path_ok path -> sess db path ps es keys sis recs f ->
  Forall writer_si sis -> db (bs "TTree") 20 <> None -> tprog_ok p -> prog_room p ->
  E0 path + rsize recs + prog_cost p <= kStartBigFile ->
  exists f' e keys' sis' recs', write_one db p f = (f', Ok e) /\ sess db path (ps ++ [p]) (es ++ [e]) keys' sis' recs' f' /\
    Forall writer_si sis' /\ rsize recs' <= rsize recs + prog_cost p.
Proof.
  intros P S FS HD TP (R1 & R2 & R3) HE. pose proof TP as (TN & TW).
  assert (CT : Forall (fun s => col_ty (cs_ty s)) (cols_of (tp_ops p))).
  { eapply Forall_impl; [|exact TW]. intros s (X & _). exact X. }
  destruct (build_fwd (tp_ops p) (wtree_new (tp_name p)) [] CT eq_refl) as (w & HB).
  assert (CC : Forall (fun k => k_class k = bs "TTree") keys).
  { pose proof (se_st _ _ _ _ _ _ _ _ S) as ST. clear - ST. induction ST as [|q k ps keys H _ IH]; constructor; [|exact IH].
    now apply stored_name in H as (_ & ? & _). }
  destruct (tree_write_fwd path keys sis recs f (tp_name p) (tp_ops p) w P (se_lay _ _ _ _ _ _ _ _ S) (numbered_le _ (se_cyc _ _ _ _ _ _ _ _ S)) CC
    TN TW R1 R2 R3 HD HB HE) as (f' & w' & HW & HF & HS & DL).
  assert (W1 : write_one db p f = (f', Ok (wt_events w'))).
  { unfold write_one. unfold fbind at 1, flift at 1. rewrite HB. unfold fbind at 1. rewrite HW. reflexivity. }
  fold (prog_cost p) in HF.
  destruct (write_one_ok db path ps es keys sis recs f p f' _ P S TP W1 DL) as (keys' & sis' & recs' & S' & G').
  exists f', (wt_events w'), keys', sis', recs'. split; [exact W1|]. split; [exact S'|].
  pose proof (se_lay _ _ _ _ _ _ _ _ S') as L'. split.
  - rewrite <- (lay_sis _ _ _ _ _ L'). apply HS. exact FS.
  - rewrite (lay_fhend _ _ _ _ _ L') in HF. lia.
Qed.
End Write.
