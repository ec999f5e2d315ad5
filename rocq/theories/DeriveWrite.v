(** From the derived writer to the columns of the file, and back. *)
From Verif Require Import Base Bytes Utf8 Values Key Header Obj RObj TreeObj File Names Column ColRead ColOps TreeOps ColBack ColType TreeFinal TreeWrite TreeSession StreamerDb
  Spec CodecFacts SpecTree SpecRead SessFacts ZipFacts Derive SpecDerive DeriveFacts DeriveOut.

(** ** The providers *)

Lemma item_rows_eq : forall k items h,
  item_rows k items h = map (fun r => rev (map (nth_error items) (seq 0 (S r))) ++ h) (seq 0 k).
Proof.
  assert (N : forall items : list sval, hd_error items = nth_error items 0) by now intros [|].
  induction k as [|k IH]; intros items h; cbn [item_rows]; [reflexivity|]. rewrite IH.
  change (seq 0 (S k)) with (0%nat :: seq 1 k). rewrite <- (seq_shift k 0). cbn [map]. rewrite !map_map.
  apply (f_equal2 cons); [now rewrite N|]. apply map_ext. intros r.
  change (seq 0 (S (S r))) with (0%nat :: seq 1 (S r)). rewrite <- (seq_shift (S r) 0). cbn [map rev]. rewrite map_map, <- app_assoc. cbn [app]. rewrite N.
  apply (f_equal (fun l => l ++ _)), f_equal, map_ext. intros i. destruct items as [|x items]; [now destruct i|reflexivity].
Qed.
Lemma nth_rev_seq {A} (g : nat -> option A) r d : nth d (rev (map g (seq 0 (S r)))) None = if (d <=? r)%nat then g (r - d)%nat else None.
Proof.
  destruct (Nat.leb_spec d r) as [L|L].
  - rewrite rev_nth by (rewrite map_length, seq_length; lia). rewrite map_length, seq_length.
    replace (S r - S d)%nat with (r - d)%nat by lia. rewrite (nth_indep _ None (g 0%nat)) by (rewrite map_length, seq_length; lia).
    rewrite map_nth, seq_nth by lia. reflexivity.
  - apply nth_overflow. rewrite rev_length, map_length, seq_length. lia.
Qed.

(** What a column at depth [d] with the values [vals] is given in the first [k] rows. *)
Definition lagging (d k : nat) (vals : list val) : list (option val) :=
  map (fun r => if (d <=? r)%nat then nth_error vals (r - d) else None) (seq 0 k).

Lemma new_sts fs : new_node (WStruct fs) = NStruct None (sts (fun j => map (proj j) []) 0 fs).
Proof.
  cbn [new_node]. f_equal. generalize 0%nat. induction fs as [|f fs IH]; intros j; cbn [sts map]; [reflexivity|]. now rewrite st_new, <- IH.
Qed.
Lemma unval_nth i l : unval (nth i l None) = nth i (map unval l) None.
Proof. change (@None val) with (unval None). now rewrite map_nth. Qed.

Lemma nth_apply (l : list (sval -> option val)) i v : nth i (map (fun a => a v) l) None = nth i l (fun _ => None) v.
Proof. revert i. induction l as [|a l IH]; intros [|i]; cbn; auto. Qed.

Lemma provider_lags fs items k i : Forall (is_a (WStruct fs)) items -> (i < length (plain_fields fs))%nat ->
  provider (rounds k items (new_node (WStruct fs))) i = lagging (nth i (depths 0 fs) 0%nat) k (field_values i items).
Proof.
  intros T L. unfold provider. rewrite new_sts, rounds_outs, map_map, item_rows_eq, map_map. unfold lagging. apply map_ext. intros r.
  rewrite app_nil_r, unval_nth, outss_leaves.
  assert (LA : length (accss 0 fs) = length (plain_fields fs)).
  { change (length (accs (WStruct fs)) = length (plain_fields fs)). rewrite (accs_length (WStruct fs) [] 0). cbn [plain_of]. unfold plain_fields.
    clear. induction fs as [|f fs IH]; cbn [flat_map]; [reflexivity|]. rewrite !app_length, IH. f_equal.
    rewrite <- !(map_length snd (plain_of _ _ _)), (depth_shift (snd f) (fst f) (fst f)), map_length. reflexivity. }
  assert (LD : length (depths 0 fs) = length (plain_fields fs)).
  { unfold depths, plain_fields. clear. induction fs as [|f fs IH]; cbn [flat_map]; [reflexivity|]. now rewrite !app_length, map_length, IH. }
  rewrite (nth_indep _ None (at_acc (fun _ => None) (nth 0%nat (rev (map (nth_error items) (seq 0 (S r)))) None))) by (rewrite map_length, combine_length; lia).
  rewrite (map_nth (fun ad => at_acc (fst ad) (nth (snd ad) (rev (map (nth_error items) (seq 0 (S r)))) None)) _ (fun _ => None, 0%nat)).
  rewrite combine_nth by lia. cbn [fst snd]. rewrite nth_rev_seq. destruct (_ <=? r)%nat; [|reflexivity].
  set (q := (r - _)%nat). unfold at_acc, field_values. rewrite nth_error_map. destruct (nth_error items q) as [v|] eqn:E; cbn [option_map]; [|reflexivity].
  apply nth_error_In in E. rewrite Forall_forall in T. specialize (T v E). pose proof (accs_values _ _ T) as A.
  change (accs (WStruct fs)) with (accss 0 fs) in A.
  pose proof (f_equal (fun l => nth i l None) A) as B. cbv beta in B.
  rewrite nth_apply in B. rewrite B.
  assert (LV : length (plain_values v) = length (plain_fields fs)).
  { apply (f_equal (@length _)) in A. rewrite !map_length in A. lia. }
  rewrite (nth_indep (map Some (plain_values v)) None (Some (VInt 0))) by (rewrite map_length; lia). now rewrite map_nth.
Qed.

Lemma lagging_0 k vals : (length vals <= k)%nat -> lagging 0 k vals = map Some vals ++ repeat None (k - length vals).
Proof.
  intros L. unfold lagging. cbn [Nat.leb].
  assert (G : forall (vals : list val) k, (length vals <= k)%nat -> map (fun r => nth_error vals (r - 0)) (seq 0 k) = map Some vals ++ repeat None (k - length vals)).
  { clear. induction vals as [|v vals IH]; intros k L.
    - cbn [length map app]. rewrite Nat.sub_0_r. clear.
      assert (G : forall a, map (fun r => nth_error (@nil val) (r - 0)) (seq a k) = repeat None k); [|apply G].
      induction k as [|k IH]; intros a; cbn [seq map repeat]; [reflexivity|]. rewrite IH. f_equal. now destruct (a - 0)%nat.
    - destruct k as [|k]; [cbn in L; lia|]. cbn [seq map length app Nat.sub nth_error]. f_equal. rewrite <- (IH k) by (cbn in L; lia).
      rewrite <- seq_shift, map_map. apply map_ext. intros r. rewrite !Nat.sub_0_r. reflexivity. }
  now apply G.
Qed.
Lemma lagging_S d k vals : lagging (S d) (S k) vals = None :: lagging d k vals.
Proof. unfold lagging. cbn [seq map Nat.leb]. f_equal. rewrite <- seq_shift, map_map. reflexivity. Qed.
Lemma lagging_ended d k vals j : (length vals <= k)%nat -> (d < S k)%nat -> ended j (lagging d (S k) vals) = if (d =? 0)%nat then (length vals <? j)%nat else (0 <? j)%nat.
Proof.
  intros L D. destruct d as [|d]; cbn [Nat.eqb].
  - rewrite lagging_0 by lia. clear. revert j. induction vals as [|v vals IH]; intros j; cbn [map app length].
    + destruct j; [now destruct (repeat None _)|]. destruct (S k - 0)%nat; reflexivity.
    + destruct j as [|j]; [reflexivity|]. cbn [ended]. replace (S k - S (length vals))%nat with (S k - length vals - 1)%nat by lia.
      assert (E : forall a b j, ended j (map (@Some val) vals ++ repeat None a) = ended j (map Some vals ++ repeat None b)).
      { clear. induction vals as [|v vals IH]; intros a b [|j]; cbn [map app ended]; try reflexivity; [|apply IH].
        destruct a, b; reflexivity. }
      rewrite (E _ (S k - length vals)%nat). apply IH.
  - rewrite lagging_S. now destruct j.
Qed.
Lemma somes_app {A} (l m : list (option A)) : somes (l ++ m) = somes l ++ somes m.
Proof. induction l as [|[a|] l IH]; cbn [somes app]; [reflexivity| |exact IH]. now rewrite IH. Qed.
Lemma somes_none {A} n : somes (repeat (@None A) n) = [].
Proof. induction n; cbn; auto. Qed.
Lemma somes_map {A} (l : list A) : somes (map Some l) = l.
Proof. induction l; cbn; congruence. Qed.
Lemma lagging_taken d : forall k vals j, (length vals + d <= k)%nat -> taken j (lagging d k vals) = firstn (j - d) vals.
Proof.
  induction d as [|d IH]; intros k vals j L.
  - rewrite lagging_0 by lia. unfold taken. rewrite firstn_app, somes_app, firstn_map, somes_map, Nat.sub_0_r.
    replace (somes _) with (@nil val); [apply app_nil_r|]. symmetry. clear.
    generalize (j - length (map Some vals))%nat as a, (k - length vals)%nat as b. induction a as [|a IH]; intros [|b]; cbn; auto.
  - destruct k as [|k]; [lia|]. rewrite lagging_S. destruct j as [|j]; [reflexivity|]. unfold taken. cbn [firstn somes Nat.sub]. apply IH. lia.
Qed.

(** ** The columns of a derived tree *)

Definition has_plain (fs : list (bytes * wty)) : bool := existsb (fun l => snd l =? 0)%nat (plain_fields fs).
Lemma plain_depth w : forall n d l, In l (plain_of n d w) -> (d <= snd l)%nat /\ (snd l = d -> exists t, w = WLeaf t /\ l = (n, t, d)).
Proof.
  induction w as [t|fs IH] using wty_ind'; intros n d l; cbn [plain_of].
  - intros [<-|[]]. split; [cbn; lia|]. intros _. now exists t.
  - intros H. apply in_flat_map in H as (f & Hf & Hl). rewrite Forall_forall in IH. destruct (IH f Hf _ _ _ Hl) as [L _]. split; lia.
Qed.
Lemma has_plain_iff fs : has_plain fs = true <-> some_plain fs.
Proof.
  unfold has_plain, some_plain, plain_fields. rewrite existsb_exists. split.
  - intros (l & Hl & E). apply Nat.eqb_eq in E. apply in_flat_map in Hl as ((n & w) & Hf & Hl). apply plain_depth in Hl as [_ Hl].
    destruct (Hl E) as (t & Et & _). cbn [snd] in Et. subst w. now exists n, t.
  - intros (n & t & H). exists (n, t, 0%nat). split; [|reflexivity]. apply in_flat_map. exists (n, WLeaf t). split; [exact H|now left].
Qed.

Lemma nesting_bound w : forall n d l, In l (plain_of n d w) -> (snd l <= d + nesting w)%nat.
Proof.
  induction w as [t|fs IH] using wty_ind'; intros n d l; cbn [plain_of nesting].
  - intros [<-|[]]. cbn. lia.
  - intros H. apply in_flat_map in H as (f & Hf & Hl). rewrite Forall_forall in IH. specialize (IH f Hf (fst f) (S d) l Hl).
    assert (N : (nesting (snd f) <= list_max (map (fun f => nesting (snd f)) fs))%nat).
    { assert (LM : (list_max (map (fun f => nesting (snd f)) fs) <= list_max (map (fun f => nesting (snd f)) fs))%nat) by lia.
      apply list_max_le in LM. rewrite Forall_forall in LM. apply LM. apply in_map_iff. eauto. }
    lia.
Qed.
Lemma fields_nesting fs l : In l (plain_fields fs) -> (snd l < nesting (WStruct fs))%nat.
Proof.
  unfold plain_fields. intros H. apply in_flat_map in H as (f & Hf & Hl). apply nesting_bound in Hl. cbn [nesting].
  assert (LM : (list_max (map (fun f => nesting (snd f)) fs) <= list_max (map (fun f => nesting (snd f)) fs))%nat) by lia.
  apply list_max_le in LM. rewrite Forall_forall in LM. specialize (LM (nesting (snd f))). assert ((nesting (snd f) <= list_max (map (fun f => nesting (snd f)) fs))%nat); [|lia].
  apply LM. apply in_map_iff. eauto.
Qed.
Lemma plain_top fs : map fst (plain_of [] 0 (WStruct fs)) = map fst (plain_fields fs).
Proof.
  cbn [plain_of]. unfold plain_fields.
  assert (G : forall w n d d', map fst (plain_of n d w) = map fst (plain_of n d' w)).
  { clear. intros w. induction w as [t|fs IH] using wty_ind'; intros n d d'; [reflexivity|]. cbn [plain_of].
    induction IH as [|f fs E _ IHf]; cbn [flat_map map]; [reflexivity|]. rewrite !map_app, IHf. f_equal. apply E. }
  induction fs as [|f fs IH]; cbn [flat_map]; [reflexivity|]. rewrite !map_app, IH. f_equal. apply G.
Qed.
Lemma depths_fields fs : depths 0 fs = map snd (plain_fields fs).
Proof. unfold depths, plain_fields. induction fs as [|f fs IH]; cbn [flat_map]; [reflexivity|]. now rewrite map_app, IH. Qed.

Definition leaf_spec (K : nat) (items : list sval) (p : bytes * ty * nat * nat) : cspec :=
  mkCS (fst (fst (fst p))) (snd (fst (fst p))) (lagging (snd (fst p)) K (field_values (snd p) items)).
Lemma derived_cols name fs items : Forall (is_a (WStruct fs)) items ->
  cols_of (tp_ops (to_tree name fs items)) =
  map (leaf_spec (length items + nesting (WStruct fs)) items) (combine (plain_fields fs) (seq 0 (length (plain_fields fs)))).
Proof.
  intros T. rewrite to_tree_cols. set (K := (length items + _)%nat).
  assert (LL : length (plain_of [] 0 (WStruct fs)) = length (plain_fields fs)) by (rewrite <- !(map_length fst), plain_top; reflexivity).
  rewrite LL.
  apply (nth_ext _ _ (mkCS [] TString []) (mkCS [] TString [])); [rewrite !map_length, !combine_length; lia|].
  intros i Hi. rewrite map_length, combine_length, seq_length, LL, Nat.min_id in Hi.
  rewrite (nth_indep _ _ ((fun p => mkCS (fst (fst (fst p))) (snd (fst (fst p))) (provider (rounds K items (new_node (WStruct fs))) (snd p))) (([], TString, 0%nat), 0%nat)))
    by (rewrite map_length, combine_length, seq_length; lia).
  rewrite (nth_indep (map (leaf_spec K items) _) _ (leaf_spec K items (([], TString, 0%nat), 0%nat))) by (rewrite map_length, combine_length, seq_length; lia).
  rewrite (map_nth (fun p => mkCS _ _ _)), map_nth, !combine_nth by (rewrite seq_length; lia). rewrite seq_nth by lia.
  unfold leaf_spec. cbn [fst snd Nat.add]. rewrite provider_lags by assumption.
  assert (E : fst (nth i (plain_of [] 0 (WStruct fs)) ([], TString, 0%nat)) = fst (nth i (plain_fields fs) ([], TString, 0%nat))).
  { rewrite <- !(map_nth fst). f_equal. apply plain_top. }
  rewrite E. f_equal. f_equal. rewrite depths_fields. apply (map_nth snd (plain_fields fs) (([], TString), 0%nat)).
Qed.

Lemma forallb_map {A B} (g : A -> B) h l : forallb h (map g l) = forallb (fun x => h (g x)) l.
Proof. induction l as [|x l IH]; cbn; congruence. Qed.
Lemma existsb_combine {A B} (h : A -> bool) (l : list A) : forall s : list B, length s = length l ->
  existsb h l = existsb (fun p => h (fst p)) (combine l s).
Proof. induction l as [|a l IH]; intros [|b s] L; try discriminate L; cbn; [reflexivity|]. rewrite (IH s); [reflexivity|]. now injection L. Qed.
Lemma derived_passes fs items m K : (length items + nesting (WStruct fs) = K)%nat ->
  passes (map (leaf_spec K items) (combine (plain_fields fs) (seq 0 (length (plain_fields fs))))) m ->
  m = if has_plain fs then length items else 0%nat.
Proof.
  intros HK [P1 P2].
  assert (NZ : exists k, K = S k /\ (length items <= k)%nat) by (cbn [nesting] in HK; exists (length items + list_max (map (fun f => nesting (snd f)) fs))%nat; lia).
  destruct NZ as (k & EK & Lk).
  assert (EN : forall l j, In l (combine (plain_fields fs) (seq 0 (length (plain_fields fs)))) ->
     ended j (cs_it (leaf_spec K items l)) = if (snd (fst l) =? 0)%nat then (length items <? j)%nat else (0 <? j)%nat).
  { intros [l i] j Hl. unfold leaf_spec. cbn [cs_it fst snd]. apply in_combine_l in Hl. apply fields_nesting in Hl. rewrite EK, lagging_ended.
    - unfold field_values. now rewrite map_length.
    - unfold field_values. rewrite map_length. exact Lk.
    - lia. }
  assert (A : forall j, (0 < j)%nat -> all_ended j (map (leaf_spec K items) (combine (plain_fields fs) (seq 0 (length (plain_fields fs))))) =
      if has_plain fs then (length items <? j)%nat else true).
  { intros j Hj. unfold all_ended, has_plain. rewrite forallb_map.
    pose proof (existsb_combine (fun l => snd l =? 0)%nat (plain_fields fs) (seq 0 (length (plain_fields fs))) (seq_length _ _)) as EC.
    rewrite EC. clear EC P1 P2. induction (combine (plain_fields fs) _) as [|p l IH]; cbn [forallb existsb]; [reflexivity|].
    rewrite (EN p) by now left. rewrite IH by (intros; apply EN; now right).
    destruct (snd (fst p) =? 0)%nat; cbn [orb andb].
    - destruct (existsb _ l); [apply andb_diag|apply andb_true_r].
    - replace (0 <? j)%nat with true by (symmetry; apply Nat.ltb_lt; lia). reflexivity. }
  rewrite A in P1 by lia. destruct (has_plain fs).
  - apply Nat.ltb_lt in P1. destruct (Nat.eq_dec m (length items)) as [|N]; [assumption|]. exfalso.
    assert (X : all_ended (S (length items)) (map (leaf_spec K items) (combine (plain_fields fs) (seq 0 (length (plain_fields fs))))) = false) by (apply P2; lia).
    rewrite A in X by lia. apply Nat.ltb_ge in X. lia.
  - destruct m as [|m]; [reflexivity|]. exfalso. specialize (P2 1%nat ltac:(lia)). rewrite A in P2 by lia. discriminate.
Qed.

(** ** Written and read back *)

Lemma open_disk d f : open_file d = Ok f -> f_disk f = d.
Proof.
  unfold open_file. intros H.
  apply rbind_inv in H as (? & _ & H). apply rbind_inv in H as (? & _ & H). apply rbind_inv in H as (? & _ & H).
  apply rbind_inv in H as (? & _ & H). apply rbind_inv in H as (? & _ & H). apply rbind_inv in H as (? & _ & H). now injection H as <-.
Qed.

Lemma one_tree path p f es : user_path path -> short_path path -> tprog_ok p -> Forall (fun s => column_type (cs_ty s)) (cols_of (tp_ops p)) ->
  ~ In 59 (tp_name p) -> session real_db path [p] = (f, Ok es) -> zlen (f_disk f) <= 2000000000 ->
  exists fo r, open_file (f_disk f) = Ok fo /\ get_tree fo (tp_name p) = Ok r /\
    n_name (t_named r) = tp_name p /\ exists m, passes (cols_of (tp_ops p)) m /\ t_entries r = Z.of_nat m /\
    Forall2 (fun s b => shows_column fo (Column (cs_name s) (cs_ty s) (taken (S m) (cs_it s))) b) (cols_of (tp_ops p)) (t_branches r).
Proof.
  intros P Sh T C N S D. destruct (user_path_ok _ P) as [P' SP]. apply SP in Sh.
  destruct (session_back real_db path [p] f es real_db_ok P' Sh) as (fo & O & _ & _ & G & _); [constructor; [exact T|constructor]|apply few_short; vm_compute; discriminate|exact S|exact D|].
  destruct (G p) as (r & Gr & R).
  - unfold latest. cbn [rev app find]. now rewrite beqb_refl.
  - now apply not_in_existsb.
  - exists fo, r. split; [exact O|split; [exact Gr|]]. apply tree_reads_cols; [exact C|]. now rewrite (open_disk _ _ O).
Qed.

Lemma values_typed w v : is_a w v -> forall n d, Forall2 (fun l x => has_type (snd (fst l)) x) (plain_of n d w) (plain_values v).
Proof.
  intros H. apply (is_a_ind2
    (fun w v => forall n d, Forall2 (fun l x => has_type (snd (fst l)) x) (plain_of n d w) (plain_values v))
    (fun fs l => forall d, Forall2 (fun l x => has_type (snd (fst l)) x) (flat_map (fun f => plain_of (fst f) d (snd f)) fs) (flat_map plain_values l)));
    [| | | |exact H]; clear w v H.
  - intros t v Hv n d. repeat constructor. exact Hv.
  - intros fs l _ IH n d. apply IH.
  - constructor.
  - intros n w r v l _ IH1 _ IH2 d. cbn [flat_map fst snd]. apply Forall2_app; [apply IH1|apply IH2].
Qed.
Lemma fields_typed fs v : is_a (WStruct fs) v -> Forall2 (fun l x => has_type (snd (fst l)) x) (plain_fields fs) (plain_values v).
Proof.
  intros H. pose proof (values_typed _ _ H [] 0%nat) as F. pose proof (plain_top fs) as E.
  revert E F. generalize (plain_fields fs) (plain_of [] 0 (WStruct fs)) (plain_values v). clear.
  intros a b c E F. revert a E. induction F as [|l x b c Hx _ IH]; intros [|l' a] E; try discriminate E; constructor.
  - cbn [map] in E. assert (E0 : fst l' = fst l) by congruence. now rewrite E0.
  - apply IH. cbn [map] in E. congruence.
Qed.
Lemma Forall2_nth_ {A B} (Q : A -> B -> Prop) a b l m i : Forall2 Q l m -> (i < length l)%nat -> Q (nth i l a) (nth i m b).
Proof. intros H. revert i. induction H as [|x y l m Hx _ IH]; intros [|i] L; cbn in *; try lia; [exact Hx|]. apply IH. lia. Qed.

Lemma nth_combine_seq {A} (l : list A) x i : In (x, i) (combine l (seq 0 (length l))) -> nth_error l i = Some x.
Proof.
  assert (G : forall k, In (x, i) (combine l (seq k (length l))) -> (k <= i)%nat /\ nth_error l (i - k) = Some x).
  { induction l as [|a l IH]; intros k; cbn [length seq combine]; [intros []|]. intros [E|E].
    - injection E as -> ->. rewrite Nat.sub_diag. split; [lia|reflexivity].
    - apply IH in E as [L E]. split; [lia|]. replace (i - k)%nat with (S (i - S k)) by lia. exact E. }
  intros H. apply G in H as [_ H]. now rewrite Nat.sub_0_r in H.
Qed.

(** What is kept of a column at depth [d] when [n] values were given. *)
Definition kept (fs : list (bytes * wty)) (n d : nat) : nat := if has_plain fs then (S n - d)%nat else 0%nat.

Lemma derived_back path name fs items f : derived_file path name fs items f -> short_path path ->
  exists fo r, open_file (f_disk f) = Ok fo /\ get_tree fo name = Ok r /\ n_name (t_named r) = name /\
    t_entries r = (if has_plain fs then zlen items else 0) /\
    Forall2 (fun l b => let '((n, t, d), j) := l in shows_column fo (Column n t (firstn (kept fs (length items) d) (field_values j items))) b)
      (combine (plain_fields fs) (seq 0 (length (plain_fields fs)))) (t_branches r).
Proof.
  intros (P & TN & LN & N59 & IT & LF & es & SE & HD) Sh.
  pose proof (derived_cols name fs items IT) as DC. set (K := (length items + _)%nat) in DC.
  assert (EN : tp_name (to_tree name fs items) = name) by reflexivity.
  assert (FV : forall l j, In (l, j) (combine (plain_fields fs) (seq 0 (length (plain_fields fs)))) -> Forall (has_type (snd (fst l))) (field_values j items)).
  { intros l j Hl. apply nth_combine_seq in Hl. unfold field_values. apply Forall_forall. intros x Hx. apply in_map_iff in Hx as (v & <- & Hv).
    rewrite Forall_forall in IT. specialize (fields_typed _ _ (IT v Hv)). intros F.
    apply (Forall2_nth_ _ ([], TString, 0%nat) (VInt 0) _ _ j) in F; [|apply nth_error_Some; congruence].
    now rewrite (nth_error_nth _ _ _ Hl) in F. }
  destruct (one_tree path (to_tree name fs items) f es P Sh) as (fo & r & O & G & NM & m & PS & TE & SC).
  - split.
    + apply names_fit; [rewrite EN; exact TN|apply text_nil|apply text_bs; now vm_compute|vm_compute; discriminate|rewrite EN; vm_compute (zlen []); lia].
    + rewrite DC, EN. apply Forall_forall. intros s Hs. apply in_map_iff in Hs as ([l j] & <- & Hl). pose proof (in_combine_l _ _ _ _ Hl) as Hl'.
      rewrite Forall_forall in LF. specialize (LF l Hl'). destruct l as [[n t] d]. destruct LF as (CT & Tn & Ln).
      red. unfold leaf_spec. cbn [cs_ty cs_name cs_it fst snd]. split; [now apply column_type_ok|split].
      * apply names_fit; [exact Tn|exact TN|apply text_bs; now vm_compute|vm_compute; discriminate|lia].
      * specialize (FV _ _ Hl). cbn [fst snd] in FV. apply Forall_forall. intros o Ho v ->. unfold lagging in Ho.
        apply in_map_iff in Ho as (q & Ho & _). destruct (d <=? q)%nat; [|discriminate Ho]. apply nth_error_In in Ho.
        apply has_type_wt. rewrite Forall_forall in FV. now apply FV.
  - rewrite DC. apply Forall_forall. intros s Hs. apply in_map_iff in Hs as ([l j] & <- & Hl). pose proof (in_combine_l _ _ _ _ Hl) as Hl'.
    rewrite Forall_forall in LF. specialize (LF l Hl'). destruct l as [[n t] d]. now destruct LF as (CT & _).
  - rewrite EN. exact N59.
  - exact SE.
  - exact HD.
  - exists fo, r. rewrite EN in G, NM. repeat (split; [assumption|]). rewrite DC in PS, SC.
    pose proof (derived_passes fs items m K eq_refl PS) as EM. split.
    + rewrite TE, EM. destruct (has_plain fs); [now rewrite zlen_def|reflexivity].
    + apply Forall2_map_l in SC. revert SC. apply Forall2_in. intros [[[n t] d] j] b Hl. unfold leaf_spec. cbn [cs_name cs_ty cs_it fst snd].
      pose proof (in_combine_l _ _ _ _ Hl) as Hl'. pose proof (fields_nesting _ _ Hl') as DN. cbn [snd] in DN.
      rewrite lagging_taken by (unfold field_values; rewrite map_length; lia). unfold kept.
      replace (S m - d)%nat with (if has_plain fs then (S (length items) - d)%nat else 0%nat); [exact (fun x => x)|].
      rewrite EM. destruct (has_plain fs) eqn:HP; [reflexivity|].
      assert (d <> 0%nat); [|lia]. intros ->. unfold has_plain in HP.
      assert (X : existsb (fun l => (snd l =? 0)%nat) (plain_fields fs) = true) by (apply existsb_exists; exists (n, t, 0%nat); split; [exact Hl'|reflexivity]).
      congruence.
Qed.

(** ** The round trip *)

Lemma find_nodup {A} (g : A -> bytes) l a : NoDup (map g l) -> In a l -> find (fun b => beqb (g b) (g a)) l = Some a.
Proof.
  induction l as [|x l IH]; intros N H; [destruct H|]. cbn [map] in N. inversion N as [|? ? N1 N2]; subst. cbn [find]. destruct H as [->|H].
  - now rewrite beqb_refl.
  - destruct (beqb (g x) (g a)) eqn:E; [|now apply IH]. apply beqb_eq in E. exfalso. apply N1. rewrite E. now apply in_map.
Qed.
Lemma flat_branches (r : tree branch) : Forall (fun b => br_subs b = []) (t_branches r) -> tree_branches_r r = t_branches r.
Proof.
  unfold tree_branches_r. generalize (t_branches r). intros l H. induction H as [|b l E _ IH]; [reflexivity|]. cbn [flat_map]. rewrite IH.
  destruct b as [top c e subs ls bks]. cbn in E. subst subs. reflexivity.
Qed.

Section RT.
Variable (d : bytes) (sis : list sinfo) (r : tree branch).

Lemma rows_of_const {A} (x : A) n (rows : list (list A)) : (0 < n)%nat -> Forall (fun row => length row = n) rows ->
  rows_of x (map (fun j => map (fun row => nth j row x) rows) (seq 0 n)) = rows.
Proof.
  intros Hn F. unfold rows_of.
  assert (S : shortest (map (fun j => map (fun row => nth j row x) rows) (seq 0 n)) = length rows).
  { destruct n as [|n]; [lia|]. cbn [seq map shortest]. rewrite map_length, map_map. clear.
    induction (seq 1 n) as [|j l IH]; [reflexivity|]. cbn [map fold_right]. rewrite IH, map_length. apply Nat.min_id. }
  rewrite S. clear S. apply (nth_ext _ _ [] []).
  - now rewrite map_length, seq_length.
  - intros i Hi. rewrite map_length, seq_length in Hi.
    rewrite (nth_indep _ [] ((fun i => map (fun c => nth i c x) (map (fun j => map (fun row => nth j row x) rows) (seq 0 n))) 0%nat)) by (rewrite map_length, seq_length; lia).
    rewrite (map_nth (fun i => map (fun c => nth i c x) (map (fun j => map (fun row => nth j row x) rows) (seq 0 n)))), seq_nth by lia. cbn [Nat.add].
    rewrite map_map. pose proof (proj1 (Forall_forall _ _) F (nth i rows []) (nth_In _ _ Hi)) as L. cbv beta in L.
    apply (nth_ext _ _ x x); [rewrite map_length, seq_length; lia|]. intros j Hj. rewrite map_length, seq_length in Hj.
    rewrite (nth_indep _ x ((fun a => nth i (map (fun row => nth a row x) rows) x) 0%nat)) by (rewrite map_length, seq_length; lia).
    rewrite (map_nth (fun a => nth i (map (fun row => nth a row x) rows) x)), seq_nth by lia. cbn [Nat.add].
    rewrite (nth_indep _ x ((fun row => nth j row x) [])) by (rewrite map_length; lia). apply (map_nth (fun row => nth j row x)).
Qed.

Definition cols_given (leaves : list (bytes * ty * nat)) (l : list sval) : Prop :=
  forall i n t dd, nth_error leaves i = Some (n, t, dd) -> column_of r (as_iter d sis t) n (field_values i l).

Definition field_of (k : nat) (v : sval) : sval := match v with SStruct l => nth k l (SVal (VInt 0)) | _ => SVal (VInt 0) end.

Lemma mirrors_delivers path w n w' : mirrors path w n w' -> forall dd l, Forall (is_a w') l -> cols_given (plain_of n dd w') l -> delivers d sis r path w l.
Proof.
  intros H. apply (mirrors_ind2
    (fun path w n w' => forall dd l, Forall (is_a w') l -> cols_given (plain_of n dd w') l -> delivers d sis r path w l)
    (fun path g rs fs => forall dd rows, Forall (are fs) rows ->
        cols_given (flat_map (fun f => plain_of (fst f) dd (snd f)) fs) (map SStruct rows) ->
        fields_deliver d sis r path g rs (map (fun k => map (fun row => nth k row (SVal (VInt 0))) rows) (seq 0 (length fs)))));
    [| | | |exact H]; clear path w n w' H.
  - intros path t dd l T C. assert (E : l = map SVal (field_values 0 l)).
    { unfold field_values. rewrite map_map. clear C. induction T as [|v l Hv _ IH]; [reflexivity|]. cbn [map]. rewrite <- IH. now inversion Hv. }
    rewrite E. constructor. apply (C 0%nat _ _ dd). reflexivity.
  - intros path g rs n fs NE FM IH dd l T C. assert (E : exists rows, l = map SStruct rows /\ Forall (are fs) rows).
    { clear C. induction T as [|v l Hv _ (rows & -> & F)]; [exists []; split; [reflexivity|constructor]|]. inversion Hv; subst.
      exists (l :: rows). split; [reflexivity|constructor; assumption]. }
    destruct E as (rows & -> & F). specialize (IH (S dd) rows F C).
    assert (L0 : fs <> []) by (inversion FM; subst; [contradiction|discriminate]).
    replace rows with (rows_of (SVal (VInt 0)) (map (fun k => map (fun row => nth k row (SVal (VInt 0))) rows) (seq 0 (length fs)))) at 1.
    + now constructor.
    + apply rows_of_const; [destruct fs; [contradiction|cbn; lia]|]. eapply Forall_impl; [|exact F]. intros row R. clear - R. induction R; cbn; congruence.
  - intros path g dd rows _ _. constructor.
  - intros path g f w rr n w' r' _ IH1 _ IH2 dd rows F C. cbn [length seq map]. constructor.
    + apply (IH1 dd).
      * apply Forall_forall. intros v Hv. apply in_map_iff in Hv as (row & <- & Hr). rewrite Forall_forall in F. specialize (F row Hr). now inversion F.
      * intros i m t e Hi. assert (Hi' : nth_error (flat_map (fun f => plain_of (fst f) dd (snd f)) ((n, w') :: r')) i = Some (m, t, e)).
        { cbn [flat_map fst snd]. rewrite nth_error_app1; [exact Hi|]. apply nth_error_Some. congruence. }
        specialize (C _ _ _ _ Hi'). replace (field_values i _) with (field_values i (map SStruct rows)); [exact C|].
        unfold field_values. rewrite !map_map. apply map_ext_in. intros row Hr. rewrite Forall_forall in F. specialize (F row Hr). inversion F as [|? ? ? v l0 Hv _]; subst.
        cbn [nth plain_values flat_map]. rewrite app_nth1; [reflexivity|].
        pose proof (F2_len _ _ _ (values_typed _ _ Hv n dd)) as LV. rewrite <- LV. apply nth_error_Some. congruence.
    + rewrite <- seq_shift, map_map.
      specialize (IH2 dd (map (fun row => tl row) rows)).
      replace (map (fun k => map (fun row => nth (S k) row (SVal (VInt 0))) rows) (seq 0 (length r')))
        with (map (fun k => map (fun row => nth k row (SVal (VInt 0))) (map (fun row => tl row) rows)) (seq 0 (length r'))).
      * apply IH2.
        -- apply Forall_forall. intros row Hr. apply in_map_iff in Hr as (row' & <- & Hr). rewrite Forall_forall in F. specialize (F row' Hr). now inversion F.
        -- intros i m t e Hi. assert (Hi' : nth_error (flat_map (fun f => plain_of (fst f) dd (snd f)) ((n, w') :: r')) (length (plain_of n dd w') + i) = Some (m, t, e)).
           { cbn [flat_map fst snd]. rewrite nth_error_app2 by lia. rewrite Nat.add_comm, Nat.add_sub. exact Hi. }
           specialize (C _ _ _ _ Hi'). replace (field_values i _) with (field_values (length (plain_of n dd w') + i) (map SStruct rows)); [exact C|].
           unfold field_values. rewrite !map_map. apply map_ext_in. intros row Hr. rewrite Forall_forall in F. specialize (F row Hr). inversion F as [|? ? ? v l0 Hv _]; subst.
           cbn [tl plain_values flat_map]. pose proof (F2_len _ _ _ (values_typed _ _ Hv n dd)) as LV. rewrite app_nth2 by lia. f_equal. lia.
      * apply map_ext. intros k. rewrite map_map. apply map_ext. intros row. destruct row; [now destruct k|reflexivity].
Qed.
End RT.
