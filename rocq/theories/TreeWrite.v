(** Whole trees: declaring the columns, writing, and what that leaves in the file. *)
From Verif Require Export TreeFinal SpecName.

(** ** Declaring a tree *)

(** What a user does with a fresh writer before writing it. *)
Inductive bop := BBranch (name : bytes) (t : ty) (it : list (option val)) | BCallback.
Definition build_step (t : wtree) (o : bop) : res wtree :=
  match o with BBranch name ty' it => new_branch t name ty' it | BCallback => Ok (add_callback t) end.
Fixpoint build (t : wtree) (ops : list bop) : res wtree :=
  match ops with [] => Ok t | o :: r => t' <-? build_step t o ;; build t' r end.

Fixpoint cols_of (ops : list bop) : list cspec :=
  match ops with [] => [] | BBranch n t it :: r => mkCS n t it :: cols_of r | BCallback :: r => cols_of r end.
Fixpoint cbs_of (ops : list bop) : nat :=
  match ops with [] => 0%nat | BBranch _ _ _ :: r => cbs_of r | BCallback :: r => S (cbs_of r) end.

(** A column that has just been declared. *)
Definition fresh (s : cspec) (c : wcol) : Prop :=
  wc_it c = cs_it s /\ wc_basket c = None /\ (forall path tn recs, col_core path (cs_name s) tn (cs_ty s) recs [] 0 c) /\ leaf_new (cs_name s) (cs_ty s) = Ok (wc_leaf c).
(** The class description of a column of vectors. *)
Definition vec_si (si : sinfo) : Prop := exists t, vec_sinfo t = Ok si.

Lemma wcol_new_fresh name t it c sis : col_ty t -> wcol_new name t it = Ok (c, sis) ->
  fresh (mkCS name t it) c /\ Forall vec_si sis.
Proof.
  intros C H. unfold wcol_new in H. destruct (leaf_new name t) as [l| | | |] eqn:EL; try discriminate. cbn [rbind] in H.
  pose proof EL as EN. apply leaf_new_st in EL.
  assert (K : forall c0, c0 = mkWC t (ccore name t 0 0 10 0 [] [0] []) (elem_for t) l it None -> fresh (mkCS name t it) c0).
  { intros c0 ->. split; [reflexivity|]. split; [reflexivity|]. split; [|exact EN]. intros path tn recs. cbn [cs_name cs_ty].
    split; [reflexivity|]. split; [reflexivity|]. split; [exact EL|]. split; [|split; [exact I|pose proof (rsize_nonneg recs); exact H0]].
    exists 10, 0, [0]. split; [reflexivity|]. split; [reflexivity|]. split; [constructor; [lia|constructor]|].
    pose proof (rsize_nonneg recs). lia. }
  destruct t as [p| |t|n t].
  - injection H as <- <-. split; [apply K; reflexivity|constructor].
  - injection H as <- <-. split; [apply K; reflexivity|constructor].
  - destruct (vec_sinfo t) as [si| | | |] eqn:ES; try discriminate. cbn [rbind] in H. injection H as <- <-.
    split; [|constructor; [exists t; exact ES|constructor]]. apply K. unfold ccore, elem_for, eol_for. cbn [vsize].
    destruct t as [p| | |]; try discriminate. cbn [vec_sinfo] in ES.
    destruct (w_class (TVec (TPrim p))) as [w|]; [|discriminate]. destruct (enum_of_prim p); [|discriminate].
    injection ES as <-. reflexivity.
  - injection H as <- <-. split; [apply K; reflexivity|constructor].
Qed.

Lemma build_ok ops : forall t t', Forall (fun s => col_ty (cs_ty s)) (cols_of ops) -> build t ops = Ok t' ->
  forall l, wt_sinfos t = Some l ->
  wt_tree t' = wt_tree t /\ wt_events t' = wt_events t /\ wt_cbs t' = (wt_cbs t + cbs_of ops)%nat /\
  (exists l', wt_sinfos t' = Some (l ++ l') /\ Forall vec_si l') /\
  exists cs, wt_cols t' = wt_cols t ++ cs /\ Forall2 fresh (cols_of ops) cs.
Proof.
  induction ops as [|[name ty' it|] ops IH]; intros t t' C H l HL; cbn [build cols_of cbs_of] in *.
  - injection H as <-. repeat (split; [reflexivity || lia|]). split; [exists []; rewrite app_nil_r; auto|].
    exists []. rewrite app_nil_r. auto.
  - inversion C as [|? ? C1 C2]; subst. cbn [build_step] in H. unfold new_branch in H.
    destruct (wcol_new name ty' it) as [[c sis]| | | |] eqn:EC; try discriminate. cbn [rbind] in H. rewrite HL in H. cbn [rbind] in H.
    destruct (wcol_new_fresh _ _ _ _ _ C1 EC) as (F & V).
    destruct (IH _ _ C2 H (l ++ sis) eq_refl) as (H1 & H2 & H3 & (l' & H4 & H5) & cs & H6 & H7).
    cbn [wt_tree wt_events wt_cbs wt_sinfos wt_cols] in *.
    split; [exact H1|]. split; [exact H2|]. split; [exact H3|]. split.
    + exists (sis ++ l'). rewrite app_assoc. split; [exact H4|]. now apply Forall_app.
    + exists (c :: cs). rewrite H6, <- app_assoc. split; [reflexivity|now constructor].
  - destruct (IH _ _ C H l HL) as (H1 & H2 & H3 & H4 & H5).
    cbn [add_callback wt_tree wt_events wt_cbs wt_sinfos wt_cols] in *.
    split; [exact H1|]. split; [exact H2|]. split; [lia|]. auto.
Qed.

Lemma fresh_live path tn recs ss cs : Forall2 fresh ss cs ->
  rows_inv (live path tn recs) 0 ss (map (fun c => (c, false)) cs).
Proof.
  induction 1 as [|s c ss cs (H1 & H2 & H3 & _) _ IH]; cbn [map]; constructor; [|exact IH].
  cbn [fst snd]. split; [|split; [exact H1|reflexivity]]. right. split; [reflexivity|]. split; [exact H2|apply H3].
Qed.

Lemma ended_false_len k it : ended k it = false -> zlen (taken k it) = Z.of_nat k.
Proof.
  revert it; induction k as [|k IH]; intros it H; [reflexivity|].
  destruct it as [|[v|] it]; try discriminate. cbn [ended] in H.
  change (taken (S k) (Some v :: it)) with (v :: taken k it). rewrite zlen_cons, IH by exact H. lia.
Qed.

(** ** What a written tree leaves *)

(** [m] is the number of full passes: [m] passes in which some column had not ended,
    then the one after which all have. *)
Definition passes (ss : list cspec) (m : nat) : Prop :=
  all_ended (S m) ss = true /\ forall j, (0 < j < S m)%nat -> all_ended j ss = false.

Definition stored (path : bytes) (recs : list bytes) (name : bytes) (ss : list cspec) (k : key) : Prop :=
  exists cycle e buf m tot cols,
    let T := wtree_full (t_add (tree0 name) tot (Z.of_nat m)) cols in
    k = mk_key name [] (bs "TTree") cycle e buf /\ key_good k /\ at_rec path recs e (khdr k ++ buf) /\
    e + k_nbytes k <= kStartBigFile /\
    passes ss m /\ wrun (k_keylen k) (tree_marshal T) = Ok buf /\ tree_ok T /\
    Forall2 (fun s c => finished path name recs s (taken (S m) (cs_it s)) c) ss cols.

(** The same with the columns and the number of bytes as they were left. *)
Definition stored_as (path : bytes) (recs : list bytes) (name : bytes) (ss : list cspec) (cols : list wcol) (tot : Z) (k : key) : Prop :=
  exists cycle e buf m,
    let T := wtree_full (t_add (tree0 name) tot (Z.of_nat m)) cols in
    k = mk_key name [] (bs "TTree") cycle e buf /\ key_good k /\ at_rec path recs e (khdr k ++ buf) /\
    e + k_nbytes k <= kStartBigFile /\
    passes ss m /\ wrun (k_keylen k) (tree_marshal T) = Ok buf /\ tree_ok T /\
    Forall2 (fun s c => finished path name recs s (taken (S m) (cs_it s)) c) ss cols.

Lemma stored_as_stored path recs name ss cols tot k : stored_as path recs name ss cols tot k -> stored path recs name ss k.
Proof. intros (cy & e & buf & m & H). exists cy, e, buf, m, tot, cols. exact H. Qed.

Lemma stored_as_grows path recs recs' name ss cols tot k : grows recs recs' -> stored_as path recs name ss cols tot k -> stored_as path recs' name ss cols tot k.
Proof.
  intros G (cy & e & buf & m & H1 & H2 & H3 & H4 & H5 & H6 & H7 & H8).
  exists cy, e, buf, m. split; [exact H1|]. split; [exact H2|].
  split; [destruct G as (x & ->); now apply at_rec_app|]. split; [exact H4|]. split; [exact H5|]. split; [exact H6|]. split; [exact H7|].
  eapply Forall2_weaken; [|exact H8]. cbv beta. intros s c. now apply finished_grows.
Qed.

Lemma stored_grows path recs recs' name ss k : grows recs recs' -> stored path recs name ss k -> stored path recs' name ss k.
Proof.
  intros G (cy & e & buf & m & tot & cols & H1 & H2 & H3 & H4 & H5 & H6 & H7 & H8).
  exists cy, e, buf, m, tot, cols. split; [exact H1|]. split; [exact H2|].
  split; [destruct G as (x & ->); now apply at_rec_app|]. split; [exact H4|]. split; [exact H5|]. split; [exact H6|]. split; [exact H7|].
  eapply Forall2_weaken; [|exact H8]. cbv beta. intros s c. now apply finished_grows.
Qed.

Lemma fiter_add_sinfo l : forall f f' x, fiter add_sinfo l f = (f', x) ->
  f' = f_set_sinfos f (fold_left sis_add l (f_sinfos f)) /\ x = Ok tt.
Proof.
  induction l as [|a l IH]; intros f f' x H; cbn [fiter fold_left] in *.
  - injection H as <- <-. split; [destruct f; reflexivity|reflexivity].
  - unfold fbind in H. rewrite add_sinfo_any in H. apply IH in H as (-> & ->). split; reflexivity.
Qed.

Lemma lay_set_sis path keys sis sis' recs f : lay path keys sis recs f -> lay path keys sis' recs (f_set_sinfos f sis').
Proof. intros (log & -> & L). exists log. split; [reflexivity|exact L]. Qed.
Lemma lay_sis path keys sis recs f : lay path keys sis recs f -> f_sinfos f = sis.
Proof. intros (log & -> & L). reflexivity. Qed.

Lemma taken_le k it : zlen (taken k it) <= zlen (taken (S k) it).
Proof. rewrite taken_S, zlen_app. pose proof (zlen_nonneg (opt_list (nth k it None))). lia. Qed.

Lemma Forall2_zlen {A B} (R : A -> B -> Prop) l m : Forall2 R l m -> zlen l = zlen m.
Proof. induction 1; [reflexivity|]. rewrite !zlen_cons. lia. Qed.

Section Write.
Variable db : bytes -> Z -> option sinfo.
Set Default Proof Using "Type".

Lemma tree_write_all path keys sis recs f name ops w f' w' :
  path_ok path -> lay path keys sis recs f ->
  Forall (fun k => k_cycle k <= 32767) keys ->
  names_ok name [] (bs "TTree") -> Forall (cspec_ok name) (cols_of ops) ->
  build (wtree_new name) ops = Ok w -> tree_write db w f = (f', Ok w') -> zlen (f_disk f') <= kStartBigFile ->
  existsb (Z.eqb 47) name = false /\
  exists recs' k si l m, grows recs recs' /\
    lay path (keys ++ [k]) (fold_left sis_add l (sis_add sis si)) recs' f' /\
    db (bs "TTree") 20 = Some si /\ Forall vec_si l /\
    stored_as path recs' name (cols_of ops) (wt_cols w') (t_tot (wt_tree w')) k /\
    (exists c, scan_cycle name (bs "TTree") keys 0 = Ok c /\ k_cycle k = to_i16 (c + 1)) /\
    passes (cols_of ops) m /\
    wt_events w' = concat (repeat (pass_events (cbs_of ops) (cols_of ops)) (S m)).
Proof.
  intros P L CY NN W HB H HD.
  assert (CT : Forall (fun s => col_ty (cs_ty s)) (cols_of ops)).
  { eapply Forall_impl; [|exact W]. intros s (X & _). exact X. }
  destruct (build_ok ops _ _ CT HB [] eq_refl) as (B1 & B2 & B3 & (l & B4 & B5) & cs & B6 & B7).
  cbn [wtree_new wt_tree wt_events wt_cbs wt_cols app] in *. rewrite Nat.add_0_l in B3.
  unfold tree_write in H. rewrite B1, B2, B3, B4, B6 in H. change (n_name (t_named (tree0 name))) with name in H.
  apply fbind_inv in H as (f1 & [[t' cols] ev] & H1 & H).
  apply fbind_inv in H as (f2 & cols' & H2 & H). injection H as <- <-. cbn [wt_events].
  unfold tree_close in H2.
  apply fbind_inv in H2 as (f3 & cols2 & HF & H2). apply fbind_inv in H2 as (f4 & [] & HP & H2).
  apply fbind_inv in H2 as (f5 & x & HI & H2). injection H2 as <- <-.
  apply fiter_add_sinfo in HI as (-> & _).
  assert (D4 : zlen (f_disk f4) <= kStartBigFile) by (destruct f4; exact HD).
  assert (D3 : zlen (f_disk f3) <= kStartBigFile).
  { eapply Z.le_trans; [|exact D4]. eapply mono_disk; [|exact HP]. mono. }
  assert (D1 : zlen (f_disk f1) <= kStartBigFile).
  { eapply Z.le_trans; [|exact D3]. eapply mono_disk; [|exact HF]. mono. }
  destruct (write_rows_ok path name P keys sis _ _ W _ 0%nat recs _ _ _ _ _ _ _ _ L (fresh_live path name recs _ _ B7) H1 D1)
    as (m & tot & recs1 & G1 & L1 & R1 & E1 & N1 & -> & T1 & ->).
  rewrite Nat.add_0_l in *.
  destruct (flush_all_ok path name P keys sis _ _ W _ _ _ _ _ L1 R1 HF D3) as (recs2 & G2 & L2 & F2 & SZ).
  change (n_name (t_named (t_add (tree0 name) tot (Z.of_nat m)))) with name in HP.
  pose proof (lay_bound path keys sis recs2 f3 P L2) as LB.
  pose proof (E0_pos path P) as HE0. pose proof (rsize_nonneg recs1) as HR1. pose proof (rsize_nonneg recs2) as HR2.
  assert (LE : E0 path + rsize recs2 <= kStartBigFile) by lia.
  assert (ML : Z.of_nat m <= kStartBigFile).
  { destruct m as [|m]; [unfold kStartBigFile; lia|].
    assert (all_ended (S m) (cols_of ops) = false) as EF by (apply N1; lia).
    assert (exists s, In s (cols_of ops) /\ ended (S m) (cs_it s) = false) as (s & HS & ES).
    { clear - EF. induction (cols_of ops) as [|s ss IH]; [discriminate|]. cbn [all_ended forallb] in EF.
      destruct (ended (S m) (cs_it s)) eqn:E; [|exists s; split; [left; reflexivity|exact E]].
      destruct (IH EF) as (s' & ? & ?). exists s'. split; [right; assumption|assumption]. }
    assert (exists c, finished path name recs2 s (taken (S (S m)) (cs_it s)) c) as (c & ds & X1 & X2 & X3 & X4).
    { clear - F2 HS. induction F2; [contradiction|]. destruct HS as [<-|HS]; eauto. }
    destruct X4 as (_ & _ & _ & _ & _ & X5). rewrite <- X1 in X5. pose proof (taken_le (S m) (cs_it s)).
    pose proof (ended_false_len _ _ ES). lia. }
  assert (TK : tree_ok (wtree_full (t_add (tree0 name) tot (Z.of_nat m)) cols2)).
  { destruct NN as (NN & _).
    eapply (tree_ok_written path name P recs2 (cols_of ops) (fun s => taken (S m) (cs_it s))); [exact W|lia|exact NN|exact F2| |lia|exact T1].
    pose proof (Forall2_zlen _ _ _ F2). unfold kStartBigFile in LE. lia. }
  set (o := tree_obj (t_add (tree0 name) tot (Z.of_nat m)) cols2) in *.
  assert (PN : put_name name o = name) by (unfold put_name; destruct name; reflexivity).
  pose proof (put_bwd db path keys sis recs2 f3 name o f4 P L2 LE) as PB. cbv zeta in PB. rewrite PN in PB.
  destruct (PB NN eq_refl HP D4) as (SL & c & buf & sis' & SC & PS & MB & EB). clear PB. split; [exact SL|].
  assert (CL : c <= 32767).
  { destruct (scan_cycle_ge _ _ _ _ _ SC) as (_ & _ & [->|(k' & K1 & K2 & <-)]); [lia|].
    rewrite Forall_forall in CY. now apply CY. }
  pose proof (put_fwd db path keys sis recs2 f3 name o c buf sis' P L2 SL) as PF. cbv zeta in PF. rewrite PN in PF.
  destruct (PF NN eq_refl SC ltac:(lia) PS MB EB) as (f4' & PE & L4 & KG). clear PF.
  rewrite PE in HP. injection HP as ->.
  set (k := mk_key name (o_title o) (o_cls o) (to_i16 (c + 1)) (E0 path + rsize recs2) buf) in *.
  unfold put_sis in PS. change (is_core_type (o_cls o)) with false in PS. cbv iota in PS.
  change (o_cls o) with (bs "TTree") in PS. change (o_vers o) with 20 in PS.
  destruct (db (bs "TTree") 20) as [si|] eqn:ED; [|discriminate]. injection PS as <-.
  exists (recs2 ++ [khdr k ++ buf]), k, si, l, m.
  assert (G3 : grows recs2 (recs2 ++ [khdr k ++ buf])) by (eexists; reflexivity).
  assert (PA : passes (cols_of ops) m) by (split; [exact E1|intros j Hj; apply N1; lia]).
  split; [eapply grows_trans; [exact G1|]; eapply grows_trans; [exact G2|exact G3]|].
  split; [rewrite (lay_sis _ _ _ _ _ L4); eapply lay_set_sis; exact L4|].
  split; [reflexivity|]. split; [exact B5|]. split; [|split; [|split]].
  - exists (to_i16 (c + 1)), (E0 path + rsize recs2), buf, m. cbv zeta. cbn [wt_tree wt_cols]. change (t_tot (t_add (tree0 name) tot (Z.of_nat m))) with tot.
    split; [reflexivity|]. split; [exact KG|]. split; [apply at_rec_last|]. split; [exact EB|]. split; [exact PA|].
    split; [exact MB|]. split; [exact TK|]. eapply Forall2_weaken; [|exact F2]. cbv beta. intros s x0. now apply finished_grows.
  - exists c. split; [exact SC|reflexivity].
  - exact PA.
  - reflexivity.
Qed.

Lemma tree_write_ok path keys sis recs f name ops w f' w' :
  path_ok path -> lay path keys sis recs f ->
  Forall (fun k => k_cycle k <= 32767) keys ->
  names_ok name [] (bs "TTree") -> Forall (cspec_ok name) (cols_of ops) ->
  build (wtree_new name) ops = Ok w -> tree_write db w f = (f', Ok w') -> zlen (f_disk f') <= kStartBigFile ->
  existsb (Z.eqb 47) name = false /\
  exists recs' k si l m, grows recs recs' /\
    lay path (keys ++ [k]) (fold_left sis_add l (sis_add sis si)) recs' f' /\
    db (bs "TTree") 20 = Some si /\ Forall vec_si l /\
    stored path recs' name (cols_of ops) k /\
    (exists c, scan_cycle name (bs "TTree") keys 0 = Ok c /\ k_cycle k = to_i16 (c + 1)) /\
    passes (cols_of ops) m /\
    wt_events w' = concat (repeat (pass_events (cbs_of ops) (cols_of ops)) (S m)).
Proof.
  intros P L CY NN W HB H HD. destruct (tree_write_all _ _ _ _ _ _ _ _ _ _ P L CY NN W HB H HD) as (SL & recs' & k & si & l & m & G & L' & D & V & ST & R).
  split; [exact SL|]. exists recs', k, si, l, m. split; [exact G|]. split; [exact L'|]. split; [exact D|]. split; [exact V|].
  split; [exact (stored_as_stored _ _ _ _ _ _ _ ST)|exact R].
Qed.
End Write.
