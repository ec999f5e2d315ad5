(** C53: damage to a file stays where it is. *)
From Verif Require Import Base Key Obj TreeObj File Column ColRead Lazy LazyFacts Spec SpecTree SpecDamage SessFacts DamageFacts PartFacts DamageFile
  PropTree PropCrash Sample SampleOpen.

(** For any file: what a branch reads as depends on the bytes of its baskets only. *)
Theorem C53_baskets_decide {L : decoders} d d' sis t b :
  (forall s n, In (s, n) (read_baskets b) -> says_its_place d s n /\ untouched d d' s n) ->
  as_iter d' sis t b = as_iter d sis t b.
Proof. intros K. now apply iter_same. Qed.

Section Finished.
Variables (path : bytes) (ts : list table) (es : list (list (nat * event))) (f fo : file).
Hypotheses (F : finished path ts es f) (S : short_path path) (O : open_file (f_disk f) = Ok fo).

Lemma placed_whole : exists krs, d_keys (f_dir fo) = map fst krs /\ Forall2 (placed f fo) ts krs /\ f_disk fo = f_disk f /\
  (forall x, hits x (frame_parts path fo ++ flat_map (fun kr => table_parts (fst kr) (snd kr)) krs) = from x 0 - from x (zlen (f_disk f))) /\
  Forall (fun p => 0 <= snd p) (frame_parts path fo) /\
  (forall d', zlen d' < 2 ^ 63 -> (forall s n, In (s, n) (frame_parts path fo) -> untouched (f_disk f) d' s n) ->
   exists fo', open_file d' = Ok fo' /\ f_io fo' = IORead d' /\ f_io fo = IORead (f_disk f) /\ f_hdr fo' = f_hdr fo /\ f_dir fo' = f_dir fo /\ f_sinfos fo' = f_sinfos fo).
Proof.
  destruct (finished_parted _ _ _ _ F) as (P & T & NB & kcs & sis & recs & log & sis' & sbuf & CS & PT). specialize (NB S).
  destruct (w_hits path ts es f fo kcs sis recs log sis' sbuf P T NB CS PT O) as (krs & K1 & K2 & K3).
  exists krs. split; [exact K1|]. split; [exact K2|].
  destruct (w_frame path ts es f fo kcs sis recs log sis' sbuf P NB CS O) as (EF & FP).
  split; [rewrite EF; reflexivity|]. split; [exact K3|]. split.
  - rewrite FP. destruct (w_sizes path ts es f kcs sis recs log sis' sbuf P CS) as (Z0 & Z1 & Z2 & Z3 & _).
    repeat (constructor; [cbn [snd]; lia|]). constructor.
  - intros d' LD U. eexists. split; [exact (w_reopens path ts es f fo kcs sis recs log sis' sbuf P NB CS O d' LD U)|]. rewrite EF. repeat split; reflexivity.
Qed.

Variable d' : bytes.

(** *** Whatever happens to the bytes of the tables, the file opens, and whatever of it is
    in place is read as before. *)
Theorem C53_damage_stays_where_it_is : zlen d' < 2 ^ 63 ->
  (forall s n, In (s, n) (frame_parts path fo) -> untouched (f_disk f) d' s n) ->
  exists fo', open_file d' = Ok fo' /\ f_disk fo' = d' /\ d_keys (f_dir fo') = d_keys (f_dir fo) /\ f_sinfos fo' = f_sinfos fo /\
    Forall2 (fun t k => exists r, key_object (f_disk f) k = Ok (OTree r) /\ shows_table fo t r /\
        (untouched (f_disk f) d' (k_seek k) (k_nbytes k) -> key_object d' k = Ok (OTree r)) /\
        (forall b, In b (t_branches r) -> (forall s n, In (s, n) (own_baskets b) -> untouched (f_disk f) d' s n) ->
           forall ty, values_of fo' ty b = values_of fo ty b))
      ts (d_keys (f_dir fo)) /\
    (forall name, ~ In 59 name ->
       (forall k, In k (d_keys (f_dir fo)) -> k_name k = name -> untouched (f_disk f) d' (k_seek k) (k_nbytes k)) ->
       get_tree fo' name = get_tree fo name).
Proof.
  intros LD U. destruct placed_whole as (krs & K1 & K2 & FD & _ & _ & RO). destruct (RO d' LD U) as (fo' & O' & I' & I & EH & ED & ES).
  exists fo'. split; [exact O'|]. assert (FD' : f_disk fo' = d') by (unfold f_disk; now rewrite I'). split; [exact FD'|]. split; [now rewrite ED|]. split; [exact ES|].
  assert (KS : forall k, In k (d_keys (f_dir fo)) -> untouched (f_disk f) d' (k_seek k) (k_nbytes k) -> key_object d' k = key_object (f_disk f) k).
  { intros k IK UK. rewrite K1 in IK. apply in_map_iff in IK as (kr & <- & IK). destruct (F2_in_r _ _ _ K2 kr IK) as (t & _ & PL).
    destruct PL as (_ & _ & P3 & P4 & P5 & _). apply key_object_same; auto. lia. }
  split.
  - rewrite K1. clear F KS K1 O O' RO. induction K2 as [|t kr ts' krs' PL _ IH]; [constructor|]. cbn [map]. constructor; [|exact IH].
    destruct PL as (P1 & P2 & P3 & P4 & P5 & P6). exists (snd kr). split; [exact P1|]. split; [exact P2|]. split.
    + intros UK. rewrite <- P1. apply key_object_same; auto. lia.
    + intros b IB UB ty. unfold values_of. rewrite FD', FD, ES. apply iter_same.
      destruct (P6 b IB) as (SB & _ & _ & PL). unfold read_baskets. rewrite SB. intros s n J. split; [exact (proj1 (PL s n J))|exact (UB s n J)].
  - intros name NS UN. unfold get_tree. f_equal. unfold get_object, freader. rewrite I', I, ED. cbn [rbind]. unfold decode_name_cycle.
    assert (DC : filter (Z.eqb 59) name = []).
    { clear - NS. induction name as [|c n IH]; [reflexivity|]. cbn [filter]. destruct (Z.eqb_spec 59 c) as [E|_]; [exfalso; apply NS; left; now symmetry|]. apply IH. intros X. apply NS. now right. }
    rewrite DC. change (zlen (@nil Z)) with 0. cbv iota. cbn [rbind].
    destruct (filter (fun k => beqb (k_name k) name) (d_keys (f_dir fo))) as [|k r] eqn:FK; [reflexivity|].
    assert (BI : In (best_key k r) (k :: r)) by apply best_key_in.
    rewrite <- FK in BI. apply filter_In in BI as (B1 & B2). apply beqb_eq in B2. apply KS; [exact B1|]. now apply UN.
Qed.

(** *** Iterating over a damaged column gives the values before the damage. *)
Theorem C53_values_before_the_damage : zlen d' < 2 ^ 63 ->
  (forall s n, In (s, n) (frame_parts path fo) -> untouched (f_disk f) d' s n) ->
  exists fo', open_file d' = Ok fo' /\
    Forall2 (fun t k => exists r, key_object (f_disk f) k = Ok (OTree r) /\
        Forall2 (fun c b => column_readable c -> forall j,
            (forall s n, In (s, n) (firstn j (own_baskets b)) -> untouched (f_disk f) d' s n) ->
            exists cu, open_iter (f_disk fo') (f_sinfos fo') (c_type c) b = Ok cu /\
              forall m, Z.of_nat m <= nth j (b_entry (br_core b)) 0 -> exists cu', take m cu = Ok (firstn m (c_values c), cu'))
          (columns (tb_setup t)) (t_branches r))
      ts (d_keys (f_dir fo)).
Proof.
  intros LD U. destruct placed_whole as (krs & K1 & K2 & FD & _ & _ & RO). destruct (RO d' LD U) as (fo' & O' & I' & I & EH & ED & ES).
  exists fo'. split; [exact O'|]. assert (FD' : f_disk fo' = d') by (unfold f_disk; now rewrite I').
  rewrite K1, FD', ES. clear F K1 O O' RO. induction K2 as [|t kr ts' krs' PL _ IH]; [constructor|]. cbn [map]. constructor; [|exact IH].
  destruct PL as (P1 & (_ & _ & P2) & P3 & P4 & P5 & P6). exists (snd kr). split; [exact P1|].
  eapply F2_in_both; [|exact P2]. cbv beta. intros c b _ IB (S1 & S2 & S3 & S4 & S5 & S6 & parts & Q1 & Q2 & Q3 & Q4 & Q5) CR j UJ.
  destruct (P6 b IB) as (SB & EB & (lf & OL) & PL).
  destruct (lazily (f_sinfos fo) (c_type c) b lf (f_disk f) d' parts j SB EB OL) as (cu & OC & TK).
  - now rewrite Q3.
  - intros [s n] J. apply (PL s n J).
  - rewrite Q1. destruct CR as (C1 & C2). pose proof (proj2 (proj1 (S4 C1)) C2) as V. unfold values_of in V. now rewrite FD in V.
  - specialize (Q5 CR). unfold values_of in Q5. rewrite FD in Q5. exact Q5.
  - intros [s n] J. split; [|exact (UJ s n J)]. apply PL. rewrite <- (firstn_skipn j (own_baskets b)). apply in_or_app. now left.
  - exists cu. split; [exact OC|]. intros m Hm. rewrite <- Q1. apply TK.
    destruct (Nat.le_gt_cases j (length parts)) as [HJ|HJ].
    + rewrite Q4 in Hm. rewrite (nth_indep _ 0 (zlen (concat (firstn 0 parts)))) in Hm by (rewrite map_length, seq_length; lia).
      rewrite (map_nth (fun k => zlen (concat (firstn k parts)))), seq_nth in Hm by lia. cbn [Nat.add] in Hm. rewrite zlen_def in Hm. lia.
    + rewrite nth_overflow in Hm by (rewrite Q4, map_length, seq_length; lia). lia.
Qed.

(** *** Every byte of the file belongs to one part. *)
Theorem C53_every_byte_has_one_place : exists krs, d_keys (f_dir fo) = map fst krs /\
  Forall2 (fun t kr => key_object (f_disk f) (fst kr) = Ok (OTree (snd kr)) /\ shows_table fo t (snd kr)) ts krs /\
  let parts := frame_parts path fo ++ flat_map (fun kr => table_parts (fst kr) (snd kr)) krs in
  (forall x, 0 <= x < zlen (f_disk f) -> owners x parts = 1%nat) /\
  (forall x, x < 0 \/ zlen (f_disk f) <= x -> owners x parts = 0%nat).
Proof using F S O.
  destruct placed_whole as (krs & K1 & K2 & FD & K3 & FF & _). exists krs. split; [exact K1|]. split.
  - eapply F2_in_both; [|exact K2]. intros t kr _ _ PL. split; apply PL.
  - intros parts.
    assert (K : forall x, Z.of_nat (owners x parts) = from x 0 - from x (zlen (f_disk f))).
    { intros x. rewrite <- hits_owners; [exact (K3 x)|]. unfold parts.
      apply Forall_app. split; [exact FF|]. apply Forall_forall. intros [s n] I.
      apply in_flat_map in I as (kr & IK & I). destruct (F2_in_r _ _ _ K2 kr IK) as (t & _ & PL). destruct PL as (_ & _ & _ & P4 & _ & P6). unfold table_parts in I. destruct I as [E|I].
      * injection E as <- <-. cbn [snd]. lia.
      * apply in_flat_map in I as (b & IB & I). destruct (P6 b IB) as (_ & _ & _ & PL). destruct (PL s n I) as (_ & N). cbn [snd]. lia. }
    pose proof (zlen_nonneg (f_disk f)). split; intros x X; specialize (K x); unfold from in K;
      destruct (Z.leb_spec 0 x), (Z.leb_spec (zlen (f_disk f)) x); lia.
Qed.

(** So damage to one part leaves the others untouched. *)
Theorem C53_parts_do_not_overlap krs l1 l2 p q : d_keys (f_dir fo) = map fst krs ->
  Forall2 (fun t kr => key_object (f_disk f) (fst kr) = Ok (OTree (snd kr)) /\ shows_table fo t (snd kr)) ts krs ->
  frame_parts path fo ++ flat_map (fun kr => table_parts (fst kr) (snd kr)) krs = l1 ++ p :: l2 -> In q (l1 ++ l2) ->
  damaged_at (f_disk f) d' (fst p) (snd p) -> untouched (f_disk f) d' (fst q) (snd q).
Proof using F S O.
  intros K1 K2 E I (_ & D) x X. destruct C53_every_byte_has_one_place as (krs' & K1' & K2' & H1 & H0).
  assert (EK : krs' = krs).
  { revert K2' K1'. rewrite K1. clear - K2. revert krs'. induction K2 as [|t kr ts' krs (A1 & _) _ IH]; intros krs' F2 M; inversion F2 as [|? kr' ? krs'' (B1 & _) F2']; subst; [reflexivity|].
    cbn [map] in M. injection M as M1 M2. f_equal; [|apply IH; [exact F2'|exact M2]].
    destruct kr as [k r], kr' as [k' r']. cbn [fst snd] in *. subst k'. rewrite A1 in B1. now injection B1 as ->. }
  subst krs'. rewrite E in H1, H0.
  assert (OW : (owners x (l1 ++ p :: l2) <= 1)%nat).
  { destruct (Z_lt_ge_dec x 0); [rewrite H0 by lia; lia|]. destruct (Z_lt_ge_dec x (zlen (f_disk f))); [rewrite H1 by lia; lia|rewrite H0 by lia; lia]. }
  destruct (Z_lt_ge_dec x 0) as [N|N].
  { exfalso. assert (Z0 : owners x (l1 ++ p :: l2) = 0%nat) by (apply H0; lia). 
    assert (IQ : In q (l1 ++ p :: l2)) by (apply in_app_or in I as [I|I]; apply in_or_app; [now left|right; now right]).
    unfold owners in Z0. apply length_zero_iff_nil in Z0.
    assert (J : In q (filter (fun p => (fst p <=? x) && (x <? fst p + snd p)) (l1 ++ p :: l2))) by (apply filter_In; split; [exact IQ|]; apply andb_true_intro; split; [apply Z.leb_le|apply Z.ltb_lt]; lia).
    rewrite Z0 in J. destruct J. }
  apply D; [lia|]. intros Y. unfold owners in OW. rewrite filter_app, app_length in OW. cbn [filter] in OW.
  assert (B : (fst p <=? x) && (x <? fst p + snd p) = true) by (apply andb_true_intro; split; [apply Z.leb_le|apply Z.ltb_lt]; lia).
  rewrite B in OW. cbn [length] in OW.
  assert (J : In q (filter (fun p => (fst p <=? x) && (x <? fst p + snd p)) (l1 ++ l2))) by (apply filter_In; split; [exact I|]; apply andb_true_intro; split; [apply Z.leb_le|apply Z.ltb_lt]; lia).
  rewrite filter_app in J. destruct (filter _ l1 ++ filter _ l2) eqn:Q; [destruct J|]. apply (f_equal (@length (Z * Z))) in Q. rewrite app_length in Q. cbn [length] in Q. lia.
Qed.
End Finished.

(** *** Reading step by step is reading everything, as far as one goes. *)
Theorem C53_step_by_step {L : decoders} d sis t b l : br_subs b = [] ->
  (as_iter d sis t b = Ok l <->
   exists cu, open_iter d sis t b = Ok cu /\ forall n, exists cu', take n cu = Ok (firstn n l, cu')).
Proof. exact (step_by_step d sis t b l). Qed.

(** *** The sample file *)
Definition overwritten (p : Z) (x d : bytes) : bytes := firstn (Z.to_nat p) d ++ x ++ skipn (Z.to_nat (p + zlen x)) d.

Example sample_parts : exists fo, open_file (f_disk sample_file) = Ok fo /\
  frame_parts path0 fo = [(0, 208); (4023, 165); (4188, 9893); (14081, 50)] /\
  map (fun k => match key_object (f_disk sample_file) k with Ok (OTree r) => table_parts k r | _ => [] end) (d_keys (f_dir fo)) =
    [[(538, 2329); (208, 74); (282, 114); (396, 78); (474, 64)]; [(2867, 301)]; [(3231, 792); (3168, 63)]].
Proof. exists sample_opened. split; [exact sample_opens|]. split; vm_compute; reflexivity. Qed.

(** The first tree of the sample overwritten with zeros, record and baskets: the file opens. *)
Definition sample_hole : bytes := overwritten 208 (repeat 0 (Z.to_nat 2659)) (f_disk sample_file).
Example sample_hole_opens : exists fo, open_file (f_disk sample_file) = Ok fo /\ zlen sample_hole < 2 ^ 63 /\
  (forall s n, In (s, n) (frame_parts path0 fo) -> untouched (f_disk sample_file) sample_hole s n).
Proof.
  destruct sample_parts as (fo & O & FP & _). exists fo. split; [exact O|].
  assert (L : zlen (repeat 0 (Z.to_nat 2659)) = 2659) by reflexivity. assert (LD : zlen (f_disk sample_file) = 14131) by reflexivity.
  assert (D : damaged_at (f_disk sample_file) sample_hole 208 2659). { pose proof (splice_damaged (f_disk sample_file) (repeat 0 (Z.to_nat 2659)) 208) as X. rewrite L, LD in X. apply X; lia. }
  split; [rewrite (proj1 D), LD; lia|]. rewrite FP. intros s n [E|[E|[E|[E|[]]]]]; injection E as <- <-; apply (damaged_apart _ _ _ _ _ _ D); lia.
Qed.

(** *** Nothing tells that a value has been changed: in the sample, one byte makes [true]
    [false]. *)
Definition flipped : bytes := Eval vm_compute in overwritten 3230 [0] (f_disk sample_file).
Definition sample_tree : tree branch := ltac:(result (get_tree sample_opened (bs "events"))).
Definition sample_branch : branch := ltac:(let x := eval vm_compute in (t_branches sample_tree) in match x with [?b] => exact b end).
Lemma flip_damages : damaged_at (f_disk sample_file) flipped 3230 1.
Proof.
  replace flipped with (overwritten 3230 [0] (f_disk sample_file)) by (vm_compute; reflexivity). apply splice_damaged; [lia|].
  assert (LD : zlen (f_disk sample_file) = 14131) by reflexivity. rewrite LD. change (zlen [0]) with 1. lia.
Qed.
Theorem C53_damage_is_noticed_refuted : exists path ts es f fo d' fo' r b,
  finished path ts es f /\ short_path path /\ open_file (f_disk f) = Ok fo /\ damaged_at (f_disk f) d' 3230 1 /\ open_file d' = Ok fo' /\
  get_tree fo (bs "events") = Ok r /\ get_tree fo' (bs "events") = Ok r /\ In b (t_branches r) /\
  values_of fo (TPrim PBool) b = Ok [VInt 1] /\ values_of fo' (TPrim PBool) b = Ok [VInt 0].
Proof.
  destruct (C53_damage_stays_where_it_is path0 tables0 heard0 sample_file sample_opened sample_finished sample_short sample_opens flipped) as (fo' & O & D & _ & SI & _ & G).
  { rewrite (proj1 flip_damages). reflexivity. }
  { intros s n I. destruct sample_parts as (fo & O & FP & _). rewrite sample_opens in O. injection O as <-. rewrite FP in I.
    destruct I as [E|[E|[E|[E|[]]]]]; injection E as <- <-; apply (damaged_apart _ _ _ _ _ _ flip_damages); lia. }
  specialize (G (bs "events")). assert (GT : get_tree sample_opened (bs "events") = Ok sample_tree) by (vm_compute; reflexivity).
  exists path0, tables0, heard0, sample_file, sample_opened, flipped, fo', sample_tree, sample_branch.
  split; [exact sample_finished|]. split; [exact sample_short|]. split; [exact sample_opens|].
  split; [exact flip_damages|]. split; [exact O|]. split; [exact GT|].
  split; [|split; [left; reflexivity|split; [vm_compute; reflexivity|unfold values_of; rewrite D, SI; vm_compute; reflexivity]]].
  rewrite <- GT. apply G; [vm_compute; intros [X|[X|[X|[X|[X|[X|[]]]]]]]; discriminate X|]. intros k I _.
  assert (K : map (fun k => (k_seek k, k_nbytes k)) (d_keys (f_dir sample_opened)) = [(538, 2329); (2867, 301); (3231, 792)]) by (vm_compute; reflexivity).
  apply (in_map (fun k => (k_seek k, k_nbytes k))) in I. rewrite K in I.
  destruct I as [E|[E|[E|[]]]]; injection E as <- <-; apply (damaged_apart _ _ _ _ _ _ flip_damages); lia.
Qed.
