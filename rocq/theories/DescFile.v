(** The records of a finished file against the class descriptions. *)
From Verif Require Import RoomFwd Spec SpecTree SessFacts FileFacts CrashFacts SpecDesc DescFacts DescTree DescMono DescSess.
Local Arguments zlen : simpl never.
Definition classes := StreamerDb.table.

(** ** The descriptions of a finished file *)
Lemma deps_meaning : Forall (fun s => desc_of (sinfo_seen s) = described_in classes (si_name s)) tree_deps.
Proof. unfold tree_deps. repeat (apply Forall_cons; [vm_compute; reflexivity|]). apply Forall_nil. Qed.
Lemma deps_with_tree : deps_names = map si_name tree_deps /\ forallb (fun c => existsb (beqb c) deps_names) with_tree = true /\
  forallb (fun c => negb (existsb (beqb c) (deps_names ++ map si_name vec_sis))) left_out = true /\
  forallb (fun c => existsb (beqb c) (with_tree ++ left_out)) tree_classes = true.
Proof. split; [|split; [|split]]; vm_compute; reflexivity. Qed.

Definition file_descs (l : list sinfo) (some : Prop) : Prop :=
  (forall s, In s l -> exists s', s = sinfo_seen s' /\ (In s' tree_deps \/ In s' vec_sis)) /\
  (some -> forall s, In s tree_deps -> In (sinfo_seen s) l).

Lemma open_sis path ts es f fo : finished path ts es f -> short_path path -> open_file (f_disk f) = Ok fo ->
  file_descs (f_sinfos fo) (ts <> []).
Proof.
  intros F Sh OP. pose proof F as (U & T & N & S & D).
  destruct (finished_session _ _ _ _ F) as (P & W & SP & DA & keys & sis & recs & rest & sis' & sbuf & CS & FR & WR).
  apply SP in Sh.
  destruct (session_sis path (map calls ts) f es P) as (sis0 & DE & WS & TI).
  { apply Forall_map. eapply Forall_impl; [|exact T]. apply table_tprog. }
  { exact S. }
  { exact D. }
  assert (E : f_sinfos fo = map sinfo_seen (rev (f_sinfos f))).
  { destruct CS as [S0 LL G NK HE SO SC SR SB S4 CF]. rewrite CF in OP |- *. cbn [f_sinfos].
    pose proof (opens_closed path keys recs _ sbuf sis' P G NK LL HE Sh SO SC SB S4) as OC.
    unfold f_disk at 1 in OP. cbn [f_io] in OP. rewrite OC in OP.
    apply (f_equal (fun r => match r with Ok x => f_sinfos x | _ => [] end)) in OP. cbn [f_sinfos] in OP. symmetry. exact OP. }
  destruct (deep_members _ _ DE WS) as (A & B). rewrite E. split.
  - intros s I. apply in_map_iff in I as (s' & <- & I). exists s'. split; [reflexivity|]. apply A. now apply in_rev.
  - intros TS s I. apply in_map. apply -> in_rev. apply B; [|exact I]. apply TI. intros X. apply map_eq_nil in X. contradiction.
Qed.

Lemma seen_name s : si_name (sinfo_seen s) = si_name s. Proof. destruct s as [[o n t] c v e]. reflexivity. Qed.
Lemma in_names c l : existsb (beqb c) l = true <-> In c l.
Proof.
  rewrite existsb_exists. split; [intros (x & I & B); apply beqb_eq in B; now subst|]. intros I. exists c. split; [exact I|apply beqb_refl].
Qed.

Section Descs.
Variables (l : list sinfo) (some : Prop).
Hypothesis FD : file_descs l some.

Lemma found_dep c : some -> In c with_tree -> exists s, find (fun s => beqb (si_name s) c) l = Some s /\ si_name s = c /\ desc_of s = described_in classes c.
Proof using FD.
  intros Y I. destruct deps_with_tree as (DN & D1 & _). rewrite forallb_forall in D1. specialize (D1 c I). apply in_names in D1.
  rewrite DN in D1. apply in_map_iff in D1 as (s & E & J). destruct FD as (A & B). pose proof (B Y s J) as K.
  destruct (find (fun s => beqb (si_name s) c) l) as [s1|] eqn:F.
  - exists s1. split; [reflexivity|]. apply find_some in F as (F1 & F2). apply beqb_eq in F2. split; [exact F2|].
    destruct (A s1 F1) as (s2 & -> & [X|X]); rewrite seen_name in F2.
    + pose proof deps_meaning as M. rewrite Forall_forall in M. rewrite (M s2 X), F2. reflexivity.
    + exfalso. pose proof deps_vec as V. rewrite forallb_forall in V. specialize (V s2 X). rewrite F2 in V.
      rewrite DN in V. rewrite (proj2 (in_names c _)) in V; [discriminate|]. rewrite <- E. now apply in_map.
  - exfalso. apply (find_none _ _ F) in K. rewrite seen_name, E, beqb_refl in K. discriminate.
Qed.
Lemma found_not c : In c left_out -> find (fun s => beqb (si_name s) c) l = None.
Proof using FD.
  intros I. destruct deps_with_tree as (DN & _ & D2 & _). rewrite forallb_forall in D2. specialize (D2 c I). apply negb_true_iff in D2.
  destruct (find (fun s => beqb (si_name s) c) l) as [s1|] eqn:F; [|reflexivity]. exfalso.
  apply find_some in F as (F1 & F2). apply beqb_eq in F2. destruct FD as (A & _). destruct (A s1 F1) as (s2 & -> & X). rewrite seen_name in F2.
  rewrite (proj2 (in_names c _)) in D2; [discriminate|]. rewrite <- F2, in_app_iff, DN. destruct X as [X|X]; [left|right]; now apply in_map.
Qed.

Lemma find_app {A} (p : A -> bool) a b : find p (a ++ b) = match find p a with Some x => Some x | None => find p b end.
Proof. clear. induction a as [|x a IH]; [reflexivity|]. cbn [app find]. destruct (p x); [reflexivity|exact IH]. Qed.
Lemma left_out_table c : In c left_out -> described_in (filter is_left_out classes) c = described_in classes c.
Proof. clear. intros H. repeat (destruct H as [<-|H]; [vm_compute; reflexivity|]). destruct H. Qed.

Lemma lib_full c : some -> In c tree_classes -> described_in (l ++ filter is_left_out classes) c = described_in classes c.
Proof using FD.
  intros Y I. destruct deps_with_tree as (_ & _ & _ & D3). rewrite forallb_forall in D3. specialize (D3 c I). apply in_names, in_app_or in D3.
  unfold described_in at 1. rewrite find_app. destruct D3 as [X|X].
  - destruct (found_dep c Y X) as (s & -> & _ & E). exact E.
  - rewrite (found_not c X), <- (left_out_table c X). unfold described_in. reflexivity.
Qed.
Lemma lib_more c d : described_in l c = Some d -> described_in (l ++ filter is_left_out classes) c = Some d.
Proof. clear. unfold described_in. rewrite find_app. destruct (find _ l); [auto|discriminate]. Qed.
End Descs.

(** ** The records *)
Lemma seg_payload d e h b k : seg d e (h ++ b) -> k_seek k = e -> k_keylen k = zlen h -> k_objlen k = zlen b -> payload d k = b.
Proof.
  intros (a & c & -> & <-) E1 E2 E3. unfold payload. rewrite E1, E2, E3, !zlen_def.
  rewrite <- Nat2Z.inj_add, !Nat2Z.id, !app_assoc, <- app_assoc, <- app_length, skipn_app, skipn_all, Nat.sub_diag.
  cbn [skipn app]. rewrite firstn_app, firstn_all, Nat.sub_diag. cbn [firstn]. apply app_nil_r.
Qed.

Lemma number_forall {A} (Q : Z -> A -> Prop) (l : list A) : (forall i a, In a l -> Q i a) -> forall i, Forall (fun p => Q (fst p) (snd p)) (number i l).
Proof. induction l as [|a l IH]; intros H i; cbn [number]; constructor; [apply H; now left|]. apply IH. intros j x X. apply H. now right. Qed.

Definition leafy (v : dval) : Prop := exists c, In c (classes_of v) /\ In c left_out.

Lemma stored_record path recs D p k : path_ok path -> seg D (E0 path) (concat recs) -> zlen D < 2 ^ 63 ->
  stored path recs (tp_name p) (cols_of (tp_ops p)) k ->
  let kl := key_listed k in
  exists T, key_object D kl = Ok (OTree (tree_seen T)) /\ tree_ok T /\ plain T /\ k_class kl = bs "TTree" /\ 0 <= k_keylen kl /\
    k_nbytes kl = k_keylen kl + zlen (payload D kl) /\ wrun (k_keylen kl) (tree_marshal T) = Ok (payload D kl) /\
    Forall (fun b => br_leaves b <> []) (t_branches (tree_seen T)).
Proof.
  intros P SG HD (cy & e & buf & m & tot & cols & K & KG & AT & EB & PA & MB & TK & F2). cbv zeta.
  destruct (at_rec_seg D path recs P SG e _ AT) as (SK & E100).
  set (T := wtree_full (t_add (tree0 (tp_name p)) tot (Z.of_nat m)) cols) in *.
  assert (KB : k_buffer k = buf) by (rewrite K; reflexivity).
  assert (KE : k_seek k = e) by (rewrite K; reflexivity).
  assert (KN : k_nbytes k = k_keylen k + zlen buf) by (rewrite K; reflexivity).
  assert (KO : k_objlen k = zlen buf) by (rewrite K; reflexivity).
  assert (KC : k_class k = bs "TTree") by (rewrite K; reflexivity).
  destruct (key_good_hdr k KG) as (LH & _).
  assert (KP : 0 <= k_keylen k) by (rewrite <- LH; apply zlen_nonneg).
  assert (KL : key_listed k = key_seen k).
  { unfold key_listed, fix_class. change (k_class (key_seen k)) with (k_class k). rewrite KC. reflexivity. }
  clear K. unfold kStartBigFile in EB. pose proof (zlen_nonneg buf).
  assert (PL : payload D (key_seen k) = buf) by (apply (seg_payload D e (khdr k) buf); auto).
  exists T. rewrite KL, PL. split; [|split; [exact TK|split; [|split; [exact KC|split; [exact KP|split; [exact KN|split; [exact MB|]]]]]]].
  - unfold key_object. rewrite key_bytes_ok; [|exact KG|congruence|congruence|lia| |exact HD].
    + cbn [rbind]. change (k_class (key_seen k)) with (k_class k). rewrite KC.
      change (negb (RObj.known (bs "TTree"))) with false. cbv iota.
      change (k_keylen (key_seen k)) with (k_keylen k). rewrite KB.
      pose proof (tree_buf_len _ _ _ TK MB KP ltac:(lia)) as B4.
      assert (exists n, S (length buf) = S (S (S n))) as (n & ->).
      { rewrite zlen_def in B4. destruct (length buf) as [|[|n]] eqn:E; try lia. now exists n. }
      apply (sim0_rrun _ _ _ _ _ _ (tree_sim n T TK) MB); lia.
    + rewrite KE. unfold rec. rewrite KB. exact SK.
  - split; [reflexivity|]. split; [reflexivity|]. unfold T, wtree_full. cbn [t_branches]. apply Forall_map.
    eapply Forall_impl; [|apply (number_forall (fun i c => b_iobits (wb_core (snd (col_wbr (i, c)))) = 0))]; [intros [i c] X; exact X|].
    intros i c I. cbn [col_wbr snd wb_core].
    clear - F2 I. induction F2 as [|s c' ss cs H _ IH]; [destruct I|]. destruct I as [->|I]; [|now apply IH].
    destruct H as (ds & _ & _ & _ & (_ & _ & _ & (mb & tb & en & -> & _) & _)). reflexivity.
  - unfold T, tree_seen, wtree_full. cbn [t_branches]. rewrite map_map. apply Forall_map.
    apply Forall_forall. intros [i c] _. discriminate.
Qed.

Lemma leaf_left_out k : In (leaf_class k) left_out.
Proof. destruct k; vm_compute; tauto. Qed.
Lemma leafy_in v l : leafy v -> In v l -> leafy (DItems l).
Proof. intros (c & C1 & C2) I. exists c. split; [|exact C2]. cbn [classes_of]. apply in_flat_map. now exists v. Qed.
Lemma leafy_member class n v l : leafy v -> In (n, v) l -> leafy (DObject class l).
Proof. intros (c & C1 & C2) I. exists c. split; [|exact C2]. cbn [classes_of]. right. apply in_flat_map. exists (n, v). now split. Qed.
Lemma leafy_array l : leafy (DItems l) -> leafy (v_array l).
Proof. intros H. apply (leafy_member _ (bs "items") (DItems l)); [exact H|]. cbn [In]. tauto. Qed.
Lemma leafy_branch n b : br_leaves b <> [] -> leafy (v_any_branch n b).
Proof.
  intros H. assert (B : leafy (v_branch n (br_core b) (br_leaves b))).
  { apply (leafy_member _ (bs "fLeaves") (v_array (v_leaves n (br_leaves b)))).
    - apply leafy_array. destruct (br_leaves b) as [|l ls]; [contradiction|]. cbn [v_leaves].
      apply (leafy_in (DPtr n (v_leaf l))); [|now left]. exists (leaf_class (lf_kind l)). split; [|apply leaf_left_out].
      cbn [classes_of]. unfold v_leaf. destruct (match lf_kind l with LKElement => _ | _ => _ end). cbn [classes_of]. now left.
    - cbn [In]. tauto. }
  unfold v_any_branch. destruct (br_elem b); [|exact B]. apply (leafy_member _ (bs "TBranch") _ _ B). now left.
Qed.
Lemma leafy_tree r : t_branches r <> [] -> Forall (fun b => br_leaves b <> []) (t_branches r) -> leafy (v_tree r).
Proof.
  intros H F. apply (leafy_member _ (bs "fBranches") (v_array (v_branches 0 (t_branches r)))).
  - apply leafy_array. destruct F as [|b l B _]; [contradiction|]. cbn [v_branches].
    apply (leafy_in (DPtr 0 (v_any_branch 1 b))); [|now left]. destruct (leafy_branch 1 b B) as (c & C1 & C2). now exists c.
  - unfold v_tree. cbn [In]. tauto.
Qed.

(** A record of a finished file. *)
Definition conforms (fo : file) (t : table) (k : key) : Prop :=
  exists r, key_object (f_disk fo) k = Ok (OTree r) /\ shows_table fo t r /\ k_class k = bs "TTree" /\
    (k_nbytes k < 2 ^ 30 ->
      decode (described_in (f_sinfos fo ++ filter is_left_out classes)) (k_keylen k) (k_class k) (payload (f_disk fo) k) = Some (v_tree r) /\
      (columns (tb_setup t) <> [] -> decode (described_in (f_sinfos fo)) (k_keylen k) (k_class k) (payload (f_disk fo) k) = None)).

Lemma records_conform path ts es f fo : finished path ts es f -> short_path path -> open_file (f_disk f) = Ok fo ->
  Forall2 (conforms fo) ts (d_keys (f_dir fo)).
Proof.
  intros F Sh OP. pose proof (open_sis _ _ _ _ _ F Sh OP) as FD.
  destruct (finished_session _ _ _ _ F) as (P & W & SP & DA & keys & sis & recs & rest & sis' & sbuf & CS & FR & WR).
  apply SP in Sh. destruct CS as [S0 LL G NK HE SO SC SR SB S4 CF].
  pose proof (opens_closed path keys recs _ sbuf sis' P G NK LL HE Sh SO SC SB S4) as OC.
  rewrite CF in OP. unfold f_disk at 1 in OP. cbn [f_io] in OP. rewrite OC in OP.
  assert (ED : f_disk fo = disk_of ((create_log path ++ rest) ++ close_log path keys sbuf (E0 path + rsize recs))).
  { apply (f_equal (fun r => match r with Ok x => f_disk x | _ => [] end)) in OP. symmetry. exact OP. }
  assert (EK : d_keys (f_dir fo) = map key_listed keys).
  { apply (f_equal (fun r => match r with Ok x => d_keys (f_dir x) | _ => [] end)) in OP. symmetry. exact OP. }
  assert (ES : f_sinfos fo = map sinfo_seen (rev sis')).
  { apply (f_equal (fun r => match r with Ok x => f_sinfos x | _ => [] end)) in OP. symmetry. exact OP. }
  clear OP OC CF.
  destruct (closed_segs path keys recs _ sbuf P LL HE) as (_ & _ & SG & _). rewrite <- ED in SG.
  destruct (disk_closed path keys recs _ sbuf P LL HE) as (_ & LD). rewrite <- ED in LD.
  assert (HD : zlen (f_disk fo) < 2 ^ 63) by (destruct (closed_sizes path keys recs sbuf P HE) as (Z0 & Z1 & Z2 & Z3 & Z4 & _); rewrite LD; lia).
  assert (SI : forall s, col_ty (cs_ty s) -> sis_for (f_sinfos fo) (cs_ty s)).
  { intros s C. rewrite ES. exact (src_sis_for real_db sis' (cs_ty s) real_db_ok SR C). }
  rewrite EK. pose proof (se_st _ _ _ _ _ _ _ _ S0) as ST.
  assert (NE : forall t, In t ts -> ts <> []) by (intros t I ->; destruct I).
  clear - P W SG HD SI ST FD NE. 
  assert (NE' : Forall (fun _ => ts <> []) ts) by (rewrite Forall_forall; intros t I; now apply (NE t)). clear NE.
  revert NE' FD. generalize (ts <> []) as Y. intros Y NE FD. revert keys ST. induction ts as [|t ts IH]; intros keys ST; cbn [map] in ST; inversion ST as [|? k ? ks SK ST']; subst; [constructor|].
  inversion W as [|? ? WT W']; subst. inversion NE as [|? ? Y1 NE']; subst. cbn [map]. constructor; [|now apply IH].
  destruct (read_tree path recs (f_sinfos fo) (f_disk fo) (calls t) k P SG HD SI (table_tprog _ WT) SK) as (r & R1 & R2).
  destruct (stored_record path recs (f_disk fo) (calls t) k P SG HD SK) as (T & K1 & K2 & K3 & K4 & K5 & K6 & K7 & K8).
  assert (E : r = tree_seen T).
  { rewrite R1 in K1. apply (f_equal (fun x => match x with Ok (OTree y) => y | _ => r end)) in K1. exact K1. }
  pose proof (tree_reads_shows _ _ _ WT R2) as RS.
  exists r. split; [exact R1|]. split; [exact RS|]. split; [exact K4|]. intros LT.
  assert (D : decode (described_in (f_sinfos fo ++ filter is_left_out classes)) (k_keylen (key_listed k)) (k_class (key_listed k)) (payload (f_disk fo) (key_listed k)) = Some (v_tree r)).
  { rewrite K4, E. apply (decode_tree _ (fun c I => lib_full _ _ FD c Y1 I)); auto. lia. }
  split; [exact D|]. intros NC.
  destruct (decode (described_in (f_sinfos fo)) _ _ _) as [v|] eqn:X; [|reflexivity]. exfalso.
  apply (decode_more _ _ (fun c d => lib_more (f_sinfos fo) c d)) in X as (X1 & X2). rewrite D in X1. injection X1 as <-.
  assert (LV : leafy (v_tree r)).
  { apply leafy_tree.
    - destruct RS as (_ & _ & F2). intros Z. rewrite Z in F2. inversion F2 as [Q|]. now rewrite <- Q in NC.
    - rewrite E. exact K8. }
  destruct LV as (c & C1 & C2). destruct (X2 c C1) as [->|Z].
  - vm_compute in C2. intuition discriminate.
  - apply Z. unfold described_in. now rewrite (found_not _ _ FD c C2).
Qed.
