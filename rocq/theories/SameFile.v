(** The bytes of a finished file decide what it holds. *)
From Verif Require Import Base WBuf Values ColBack Key Obj TreeObj File FileOps Column ColRead TreeWrite TreeSession StreamerDb
  Spec SpecTree SpecRoom SpecBasket SpecDamage SessFacts RoomFacts BasketFacts PartFacts DamageFile BasketFile.

Lemma app_split {A} (a b c d : list A) : a ++ b = c ++ d -> length a = length c -> a = c /\ b = d.
Proof.
  revert c. induction a as [|x a IH]; intros [|y c] E L; cbn in *; try discriminate; [auto|].
  injection E as -> E. destruct (IH c E) as (-> & ->); auto.
Qed.
Lemma app_split_end {A} (a b c d : list A) : a ++ b = c ++ d -> length b = length d -> a = c /\ b = d.
Proof.
  intros E L. apply app_split; [exact E|]. apply (f_equal (@length A)) in E. rewrite !app_length in E. lia.
Qed.

(** ** Entries *)
Lemma enc_split t v v' x x' : wt t v -> wt t v' -> enc t v ++ x = enc t v' ++ x' -> v = v' /\ x = x'.
Proof.
  intros W W' E. pose proof (reads_unmarshal t v W [] x 0 []) as R. pose proof (reads_unmarshal t v' W' [] x' 0 []) as R'.
  cbn [app] in R, R'. rewrite E in R. rewrite R in R'. assert (v = v') as <- by now injection R'. split; [reflexivity|].
  now apply app_inv_head in E.
Qed.
Lemma ent_split t v v' x x' : wt t v -> wt t v' -> ent t v ++ x = ent t v' ++ x' -> v = v' /\ x = x'.
Proof.
  intros W W' E. destruct t as [p| |t|n t]; try (exact (enc_split _ _ _ _ _ W W' E)).
  unfold ent in E. rewrite <- !app_assoc in E. apply app_split in E as (_ & E); [|now rewrite !be_length].
  apply app_split in E as (_ & E); [|now rewrite !be_length]. exact (enc_split _ _ _ _ _ W W' E).
Qed.
Lemma ents_split t vs : forall vs' x x', Forall (wt t) vs -> Forall (wt t) vs' -> length vs = length vs' -> ents t vs ++ x = ents t vs' ++ x' -> vs = vs'.
Proof.
  induction vs as [|v vs IH]; intros [|v' vs'] x x' W W' L E; try discriminate; [reflexivity|].
  inversion W as [|? ? A B]; inversion W' as [|? ? A' B']; subst. cbn [ents flat_map] in E. rewrite <- !app_assoc in E.
  apply ent_split in E as (-> & E); [|assumption..]. f_equal. injection L as L. exact (IH _ _ _ B B' L E).
Qed.
Lemma entries_lens a : forall b n, entries_before n a = entries_before n b -> map (@length val) a = map (@length val) b.
Proof.
  induction a as [|p a IH]; intros [|q b] n E; cbn [entries_before] in E.
  - reflexivity.
  - destruct b; discriminate.
  - destruct a; discriminate.
  - cbn [map]. assert (E2 : entries_before (n + zlen p) a = entries_before (n + zlen q) b) by now injection E.
    assert (L : zlen p = zlen q). { destruct a, b; cbn [entries_before] in E2; injection E2; lia. }
    rewrite L in E2. rewrite (IH _ _ E2). f_equal. rewrite !zlen_def in L. lia.
Qed.

(** ** Types *)
Lemma letters_inj p q : letter_of p = letter_of q -> no_sign p = no_sign q -> p = q.
Proof. destruct p, q; intros H1 H2; reflexivity || discriminate. Qed.
Lemma elem_inj p q : p <> PBool -> q <> PBool -> elem_for (TVec (TPrim p)) = elem_for (TVec (TPrim q)) -> p = q.
Proof. destruct p, q; intros N1 N2 H; try reflexivity; try congruence; vm_compute in H; discriminate. Qed.
Lemma type_decided c c' l : column_type (c_type c) -> column_type (c_type c') -> right_leaf c l -> right_leaf c' l ->
  elem_for (c_type c) = elem_for (c_type c') -> c_name c = c_name c' /\ c_type c = c_type c'.
Proof.
  unfold right_leaf. intros T T' (N & R) (N' & R') E. split; [congruence|].
  destruct (c_type c) as [p| |t|n t], (c_type c') as [p'| |t'|n' t']; cbn [column_type] in *;
    try destruct t as [q| | |]; try destruct t' as [q'| | |]; try contradiction.
  - destruct R as (R1 & R2 & _), R' as (R1' & R2' & _). f_equal. apply letters_inj; congruence.
  - exfalso. destruct R as (R & _), R' as (R' & _). rewrite R in R'. destruct p; discriminate.
  - exfalso. destruct R as (R & _), R' as (R' & _). rewrite R in R'. destruct p; discriminate.
  - exfalso. destruct R as (_ & _ & _ & _ & R & _), R' as (_ & _ & _ & _ & R' & _). rewrite R in R'. rewrite <- N, N' in R'.
    apply (f_equal (@length Z)) in R'. rewrite !app_length in R'. cbn in R'. lia.
  - exfalso. destruct R as (R & _), R' as (R' & _). rewrite R in R'. destruct p'; discriminate.
  - reflexivity.
  - exfalso. destruct R as (R & _), R' as (R' & _). congruence.
  - exfalso. destruct R as (R & _), R' as (R' & _). rewrite R in R'. destruct q'; discriminate.
  - exfalso. destruct R as (R & _), R' as (R' & _). rewrite R in R'. destruct p'; discriminate.
  - exfalso. destruct R as (R & _), R' as (R' & _). congruence.
  - now rewrite (elem_inj q q' T T' E).
  - exfalso. destruct R as (R & _), R' as (R' & _). rewrite R in R'. destruct q'; discriminate.
  - exfalso. destruct R as (_ & _ & _ & _ & R & _), R' as (_ & _ & _ & _ & R' & _). rewrite R in R'. rewrite <- N', N in R'.
    apply (f_equal (@length Z)) in R'. rewrite !app_length in R'. cbn in R'. lia.
  - exfalso. destruct R as (R & _), R' as (R' & _). rewrite R in R'. destruct q; discriminate.
  - exfalso. destruct R as (R & _), R' as (R' & _). rewrite R in R'. destruct q; discriminate.
  - destruct R as (R1 & R2 & R3 & _), R' as (R1' & R2' & R3' & _).
    assert (n = n') as -> by lia. rewrite (letters_inj q q'); congruence.
Qed.

(** ** Columns *)
(** What is known of a column in a file with the bytes [D]. *)
Definition kept (path : bytes) (recs : list bytes) (tn : bytes) (c : column) (w : wcol) : Prop :=
  text tn /\ column_ok tn c /\ TreeOps.finished path tn recs (mkCS (c_name c) (c_type c) (map Some (c_values c))) (c_values c) w /\ listed tn c (col_branch w).

Lemma basket_decided D path path' recs recs' nm tn t i i' ds : path_ok path -> path_ok path' ->
  seg D (E0 path) (concat recs) -> seg D (E0 path') (concat recs') -> names_ok nm tn (bs "TBasket") ->
  0 <= i -> i + zlen ds <= 32767 -> 0 <= i' -> i' + zlen ds <= 32767 -> forall ds',
  dones_ok path nm tn t recs i ds -> dones_ok path' nm tn t recs' i' ds' -> map d_seek ds = map d_seek ds' ->
  map (d_nbytes nm tn t) ds = map (d_nbytes nm tn t) ds' -> map (fun d => length (d_vals d)) ds = map (fun d => length (d_vals d)) ds' ->
  map d_vals ds = map d_vals ds'.
Proof.
  intros P P' SG SG' N. revert i i'. induction ds as [|d ds IH]; intros i i' I1 I2 I1' I2' [|d' ds'] DO DO' E1 E2 E3; try discriminate; [reflexivity|].
  cbn [map] in *. injection E1 as S1 E1. injection E2 as S2 E2. injection E3 as S3 E3. rewrite zlen_cons in *. pose proof (zlen_nonneg ds).
  cbn [dones_ok] in DO, DO'. destruct DO as (A & NS & B & W & DO), DO' as (A' & NS' & B' & W' & DO').
  rewrite (IH (i + 1) (i' + 1) ltac:(lia) ltac:(lia) ltac:(lia) ltac:(lia) ds' DO DO' E1 E2 E3). f_equal.
  destruct (at_rec_seg D path recs P SG _ _ A) as (SD & G). destruct (at_rec_seg D path' recs' P' SG' _ _ A') as (SD' & G').
  pose proof (brec_len nm tn t (d_seek d) (i + 1) (d_ns d) (d_vals d) N ltac:(red; lia) G B) as BL.
  pose proof (brec_len nm tn t (d_seek d') (i' + 1) (d_ns d') (d_vals d') N ltac:(red; lia) G' B') as BL'.
  apply seg_zsub in SD. apply seg_zsub in SD'. rewrite BL in SD. rewrite BL' in SD'.
  fold (d_nbytes nm tn t d) in SD. fold (d_nbytes nm tn t d') in SD'. rewrite <- S1, <- S2, SD in SD'. unfold brec in SD'.
  apply app_split_end in SD' as (_ & EP).
  - unfold payload in EP. exact (ents_split t _ _ _ _ W W' S3 EP).
  - unfold d_nbytes in S2. rewrite !zlen_def in S2. lia.
Qed.

Lemma column_decided D path path' recs recs' tn c c' w w' : path_ok path -> path_ok path' ->
  seg D (E0 path) (concat recs) -> seg D (E0 path') (concat recs') -> kept path recs tn c w -> kept path' recs' tn c' w' ->
  col_branch w = col_branch w' -> c = c'.
Proof.
  intros P P' SG SG' (TT & CO & FI & LI) (_ & CO' & FI' & LI') EB. rewrite <- EB in LI'.
  destruct LI as (_ & _ & _ & _ & _ & l & EL & RL). destruct LI' as (_ & _ & _ & _ & _ & l' & EL' & RL').
  rewrite EL in EL'. injection EL' as <-.
  destruct FI as (ds & V & Z1 & Z2 & C1 & C2 & C3 & (mb & tot & en & E & EN & _) & DO & _).
  destruct FI' as (ds' & V' & Z1' & Z2' & C1' & C2' & C3' & (mb' & tot' & en' & E' & EN' & _) & DO' & _).
  cbn [cs_name cs_ty] in *.
  assert (EE : elem_for (c_type c) = elem_for (c_type c')).
  { apply (f_equal br_elem) in EB. cbn [col_branch br_elem] in EB. congruence. }
  destruct (type_decided c c' l (proj1 CO) (proj1 CO') RL RL' EE) as (EN1 & ET).
  rewrite <- EN1, <- ET in *. apply (f_equal br_core) in EB. cbn [col_branch br_core] in EB. rewrite E, E' in EB.
  apply (f_equal (fun b => (b_bytes b, b_entry b, b_seek b))) in EB. cbn [bcore_seen ccore b_bytes b_entry b_seek] in EB.
  injection EB as Q1 Q2 Q3. subst en en'.
  assert (ED : forall l, d_entry l = entries_before 0 (map d_vals l)).
  { intros x. rewrite entries_seq, map_length. unfold d_entry. apply map_ext. intros k. unfold d_all. rewrite firstn_map, <- flat_map_concat_map. reflexivity. }
  rewrite !ED in Q2. apply entries_lens in Q2. rewrite !map_map in Q2.
  destruct (column_cspec tn c TT CO) as (_ & NF & _). cbn [cs_name] in NF.
  assert (EV : map d_vals ds = map d_vals ds').
  { assert (LL : zlen ds' = zlen ds) by (rewrite !zlen_def; apply (f_equal (@length _)) in Q1; rewrite !map_length in Q1; lia).
    eapply (basket_decided D path path' recs recs' (c_name c) tn (c_type c) 0 0); try eassumption; lia. }
  destruct c as [n t vs], c' as [n' t' vs']. cbn [c_name c_type c_values] in *. subst n' t'. f_equal. rewrite V, V'. unfold d_all.
  rewrite !flat_map_concat_map, EV. reflexivity.
Qed.

(** ** Files *)
Lemma column_kept path recs tn c m w : path_ok path -> text tn -> column_ok tn c ->
  TreeOps.finished path tn recs (mkCS (c_name c) (c_type c) (map Some (c_values c))) (taken m (map Some (c_values c))) w ->
  cut_up (mkCS (c_name c) (c_type c) (map Some (c_values c))) w -> kept path recs tn c w.
Proof.
  intros P T CO FI CU. pose proof (column_listed path recs tn c m w P CO FI CU) as LI. split; [exact T|]. split; [exact CO|]. split; [|exact LI].
  destruct LI as (_ & _ & _ & (EN & _) & _). destruct FI as (ds & V & Z1 & Z2 & CC). exists ds. split; [|split; [exact Z1|split; [exact Z2|exact CC]]].
  rewrite <- V. destruct CC as (_ & _ & _ & (mb & tot & en & E & _) & _). cbn [col_branch br_core] in EN. rewrite E in EN.
  cbn [bcore_seen ccore b_entries] in EN. rewrite <- V in EN. rewrite taken_plain in *. rewrite !zlen_def, firstn_length in EN.
  symmetry. apply firstn_all2. lia.
Qed.

Definition in_file (path : bytes) (recs : list bytes) (D : bytes) (t : table) (k : key) : Prop :=
  exists r ws, key_object D k = Ok (OTree r) /\ t_branches r = map col_branch ws /\ Forall2 (kept path recs (tb_name t)) (columns (tb_setup t)) ws.
Lemma file_kept path ts es f fo : SpecTree.finished path ts es f -> short_path path -> open_file (f_disk f) = Ok fo ->
  exists recs, path_ok path /\ seg (f_disk f) (E0 path) (concat recs) /\ Forall2 (in_file path recs (f_disk f)) ts (d_keys (f_dir fo)).
Proof.
  intros F S O. destruct (finished_parted _ _ _ _ F) as (P & T & NB & kcs & sis & recs & log & sis' & sbuf & CS & PT). specialize (NB S).
  destruct (w_frame path ts es f fo kcs sis recs log sis' sbuf P NB CS O) as (EF & _).
  destruct (w_segs path ts es f kcs sis recs log sis' sbuf P CS) as (_ & _ & SG & _).
  destruct (w_sizes path ts es f kcs sis recs log sis' sbuf P CS) as (Z0 & Z1 & Z2 & Z3 & Z4 & _).
  assert (HD : zlen (f_disk f) < 2 ^ 63) by lia. exists recs. split; [exact P|]. split; [exact SG|].
  assert (DK : d_keys (f_dir fo) = map key_listed (map fst kcs)) by (rewrite EF; reflexivity). rewrite DK.
  pose proof (pt_st _ _ _ _ _ PT) as F2. pose proof (pt_cut _ _ _ _ _ PT) as FC. clear - P T SG HD F2 FC. revert kcs F2 FC.
  induction ts as [|t l IH]; intros kcs F2 FC; inversion F2 as [|a kc b kcs' SK F2' E1 E2]; subst; [constructor|].
  inversion FC as [|a kc' b kcs2 CK FC' E1 E2]; subst. inversion T as [|? ? WT T']; subst. cbn [map]. constructor; [|exact (IH T' kcs' F2' FC')].
  destruct (table_placed path recs (f_disk f) (calls t) kc P SG HD (table_tprog _ WT) SK) as (r & R1 & R2 & _).
  exists r, (snd kc). split; [exact R1|]. split; [exact R2|]. destruct SK as (stot & (cy & e & buf & m & _ & _ & _ & _ & _ & _ & _ & FF) & _).
  change (tp_name (calls t)) with (tb_name t) in FF. rewrite cols_of_calls in FF, CK. destruct WT as (TX & _ & WC).
  clear - P FF CK WC TX. revert FF CK. generalize (snd kc). induction WC as [|c cs WCc _ IH]; intros ws FF CK; inversion FF; subst; [constructor|].
  inversion CK; subst. constructor; [|apply IH; assumption]. eapply column_kept; eassumption.
Qed.

Lemma columns_decided D path path' recs recs' tn cs ws : path_ok path -> path_ok path' ->
  seg D (E0 path) (concat recs) -> seg D (E0 path') (concat recs') -> Forall2 (kept path recs tn) cs ws ->
  forall cs' ws', Forall2 (kept path' recs' tn) cs' ws' -> map col_branch ws = map col_branch ws' -> cs = cs'.
Proof.
  intros P P' SG SG'. induction 1 as [|c w cs ws K _ IH]; intros cs' ws' F E; inversion F as [|c' w' cs2 ws2 K' F']; subst; try discriminate; [reflexivity|].
  pose proof (f_equal (hd (col_branch w)) E) as E1. pose proof (f_equal (@tl branch) E) as E2. cbn [map hd tl] in E1, E2. f_equal; [|exact (IH _ _ F' E2)].
  exact (column_decided D path path' recs recs' tn c c' w w' P P' SG SG' K K' E1).
Qed.
