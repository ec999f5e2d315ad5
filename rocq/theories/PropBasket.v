(** C58: which entries go into which basket. *)
From Verif Require Refused.
From Verif Require Import Base WBuf Values Key Obj TreeObj File FileOps Column ColRead Lazy LazyFacts TreeWrite TreeSession StreamerDb
  Spec SpecTree SpecRoom SpecBasket SpecDamage SessFacts BasketFacts PartFacts DamageFile BasketFile Sample PropRoom PropDamage.
Import SpecTree.

(** ** In the file *)
Section Finished.
Variables (path : bytes) (ts : list table) (es : list (list (nat * event))) (f fo : file).
Hypotheses (F : finished path ts es f) (S : short_path path) (O : open_file (f_disk f) = Ok fo).

(** Each column is stored in the baskets [in_baskets] says, which have the sizes
    [basket_bytes] says; a reader of the column gets them one after the other. *)
Theorem C58_baskets_of_a_file :
  Forall2 (fun t k => exists r, key_object (f_disk f) k = Ok (OTree r) /\ shows_table fo t r /\
      Forall2 (fun c b => b_entry (br_core b) = entries_before 0 (in_baskets c) /\
          b_bytes (br_core b) = map (basket_bytes (tb_name t) c) (in_baskets c) /\
          length (b_seek (br_core b)) = length (in_baskets c) /\
          (column_readable c -> open_iter (f_disk fo) (f_sinfos fo) (c_type c) b = Ok (mkCursor [] (map Ok (in_baskets c)))))
        (columns (tb_setup t)) (t_branches r))
    ts (d_keys (f_dir fo)).
Proof.
  pose proof (keys_listed path ts es f fo F S O) as K.
  destruct (placed_whole path ts es f fo F S O) as (krs & K1 & K2 & FD & _). rewrite K1 in *.
  clear K1 F S O. induction K2 as [|t kr ts' krs' PL _ IH]; [constructor|]. cbn [map] in K |- *. inversion K as [|? ? ? ? (r & R1 & _ & _ & R2) K']; subst.
  constructor; [|exact (IH K')]. destruct PL as (P1 & P2 & _ & _ & _ & P6).
  pose proof (res_eq _ _ _ R1 P1) as E. apply (f_equal (fun o => match o with OTree y => y | _ => r end)) in E. cbv beta iota in E. subst r.
  exists (snd kr). split; [exact P1|]. split; [exact P2|]. destruct P2 as (_ & _ & P2).
  assert (X : Forall2 (fun c b => listed (tb_name t) c b /\ shows_column fo c b) (columns (tb_setup t)) (t_branches (snd kr))).
  { clear - R2 P2. induction R2; inversion P2; subst; constructor; auto. }
  eapply F2_in_both; [|exact X]. cbv beta. intros c b _ IB ((L1 & L2 & L3 & _) & (S1 & S2 & S3 & S4 & S5 & S6 & parts & Q1 & Q2 & Q3 & Q4 & Q5)).
  assert (EP : parts = in_baskets c).
  { apply (entries_inj _ _ 0); [rewrite entries_seq, <- Q4; exact L1|]. rewrite Q1. unfold in_baskets. rewrite cut_concat. reflexivity. }
  subst parts. split; [exact L1|]. split; [exact L2|]. split; [exact Q2|]. intros CR.
  destruct (P6 b IB) as (SB & EB & (lf & OL) & PL). specialize (Q5 CR). destruct CR as (C1 & C2).
  pose proof (proj2 (proj1 (S4 C1)) C2) as V. unfold values_of in V, Q5.
  apply (as_iter_open _ _ _ SB) in V as (parts & V1 & V2). rewrite V1. do 2 f_equal.
  rewrite (open_plain _ _ _ _ SB EB OL) in V1; [|now rewrite Q3|intros [s n] J; apply (PL s n J)].
  apply rbind_inv in V1 as (nm & _ & V1). destruct (existsb _ _); [|discriminate]. injection V1 as V1. rewrite <- V1. symmetry.
  fold (own_baskets b) in Q5.
  assert (PO : forall p, In p (own_baskets b) -> 0 < snd p) by (intros [s n] J; apply (PL s n J)).
  clear - Q5 SB EB OL PO. revert PO. generalize (own_baskets b) (in_baskets c) Q5. clear Q5.
  induction 1 as [|[s n] vs sl ps A _ IH]; intros PO; [reflexivity|]. cbn [map]. f_equal.
  - symmetry. apply (get_one_back _ _ _ _ _ _ _ _ SB EB OL (PO _ (or_introl eq_refl)) A).
  - apply IH. intros p J. apply PO. now right.
Qed.
End Finished.

(** ** How full the baskets are *)
Lemma value_bytes_nonneg t v : 0 <= value_bytes t v.
Proof.
  assert (X : forall s : bytes, 0 <= string_size s). { intros s. unfold string_size. pose proof (zlen_nonneg s). destruct (zlen s <? 255); lia. }
  destruct t as [p| |[p| |t|n t]|n [p| |t|m t]], v as [z|x|l]; cbn [value_bytes]; try lia; try apply X; try nia.
  pose proof (zlen_nonneg l). nia.
Qed.
Lemma total_nonneg {A} (g : A -> Z) l : (forall a, 0 <= g a) -> 0 <= total g l.
Proof. intros N. induction l as [|a l IH]; cbn [total]; [lia|]. specialize (N a). lia. Qed.

Section Cut.
Variable size : val -> Z.
Hypothesis N : forall v, 0 <= size v.

Definition open_one (h : list val) : Prop := h = [] \/ exists h' v, h = h' ++ [v] /\ total size h + size v < 32768.
Definition full_one (p : list val) : Prop := exists h v, p = h ++ [v] /\ open_one h /\ 32768 <= total size p + size v.
Lemma cut_full vs : forall held, open_one held -> exists init lst, cut size held vs = init ++ [lst] /\ Forall full_one init /\ open_one lst.
Proof.
  induction vs as [|v vs IH]; intros held H; cbn [cut].
  - exists [], held. repeat split; auto.
  - destruct (Z.leb_spec 32768 (total size (held ++ [v]) + size v)) as [L|L].
    + destruct (IH [] (or_introl eq_refl)) as (init & lst & E & F1 & F2). exists ((held ++ [v]) :: init), lst. rewrite E.
      split; [reflexivity|]. split; [constructor; [exists held, v; auto|exact F1]|exact F2].
    + apply IH. right. exists held, v. auto.
Qed.
Lemma open_small h : open_one h -> total size h < 32768.
Proof. intros [->|(h' & v & _ & L)]; [cbn; lia|]. specialize (N v). lia. Qed.

Variable s : Z.
Hypothesis SP : 0 < s.
Definition per : Z := Z.max 1 (32767 / s).
Lemma total_same l : Forall (fun v => size v = s) l -> total size l = s * zlen l.
Proof. induction 1 as [|v l E _ IH]; cbn [total]; [rewrite (@zlen_nil val); lia|]. rewrite E, IH, zlen_cons. lia. Qed.
Lemma per_spec n : 1 <= n -> (32768 <= s * n + s <-> per <= n).
Proof.
  intros H. unfold per. pose proof (Z.div_mod 32767 s ltac:(lia)) as E. pose proof (Z.mod_pos_bound 32767 s SP) as M.
  split; intros L; [|apply Z.max_lub_r in L; nia].
  apply Z.max_lub; [exact H|]. destruct (Z.le_gt_cases (32767 / s) n) as [|G]; [assumption|]. nia.
Qed.
Lemma cut_same vs : forall held, Forall (fun v => size v = s) (held ++ vs) -> zlen held < per ->
  exists init lst, cut size held vs = init ++ [lst] /\ Forall (fun p => zlen p = per) init /\ zlen lst < per.
Proof.
  induction vs as [|v vs IH]; intros held H LH; cbn [cut].
  - exists [], held. repeat split; auto.
  - replace (held ++ v :: vs) with ((held ++ [v]) ++ vs) in H by now rewrite <- app_assoc.
    pose proof H as H0. rewrite Forall_app in H0. destruct H0 as (H1 & H2). pose proof H1 as H1'. rewrite Forall_app in H1'. destruct H1' as (_ & HV). inversion HV as [|? ? EV _]; subst x l.
    rewrite (total_same _ H1), EV. pose proof (zlen_nonneg held).
    assert (LN : zlen (held ++ [v]) = zlen held + 1) by (rewrite zlen_app, zlen_cons, (@zlen_nil val); lia).
    pose proof (per_spec (zlen (held ++ [v])) ltac:(lia)) as PS.
    destruct (Z.leb_spec 32768 (s * zlen (held ++ [v]) + s)) as [L|L].
    + apply PS in L. destruct (IH [] H2) as (init & lst & E & F1 & F2); [rewrite (@zlen_nil val); lia|].
      exists ((held ++ [v]) :: init), lst. rewrite E. split; [reflexivity|]. split; [constructor; [lia|exact F1]|exact F2].
    + apply (IH (held ++ [v]) H). lia.
Qed.
Lemma concat_same (l : list (list val)) n : Forall (fun p => zlen p = n) l -> zlen (concat l) = n * zlen l.
Proof. induction 1 as [|p l E _ IH]; cbn [concat]; [rewrite (@zlen_nil val), (@zlen_nil (list val)); lia|]. rewrite zlen_app, IH, zlen_cons, E. lia. Qed.
End Cut.

(** The baskets hold the entries in their order.  All but the last hold at least 16384
    bytes, and without their last entry less than 32768; the last one, what is left. *)
Theorem C58_how_full c : let size := total (value_bytes (c_type c)) in
  concat (in_baskets c) = c_values c /\
  exists full rest, in_baskets c = full ++ [rest] /\ size rest < 32768 /\
    Forall (fun p => 16384 <= size p /\ exists h v, p = h ++ [v] /\ size h < 32768 /\ 32768 <= size p + value_bytes (c_type c) v) full.
Proof.
  cbv zeta. unfold in_baskets. split; [apply cut_concat|]. pose proof (value_bytes_nonneg (c_type c)) as N.
  destruct (cut_full (value_bytes (c_type c)) (c_values c) [] (or_introl eq_refl)) as (init & lst & E & F1 & F2).
  exists init, lst. split; [exact E|]. split; [exact (open_small _ N _ F2)|]. eapply Forall_impl; [|exact F1].
  intros p (h & v & -> & OH & L). pose proof (total_nonneg _ h N). split.
  - rewrite total_app in *. cbn [total] in *. lia.
  - exists h, v. split; [reflexivity|]. split; [exact (open_small _ N _ OH)|exact L].
Qed.

(** Entries of one size: every basket but the last holds 32767 / size of them (or a
    single one, if it is larger than that), so that the number of baskets can be
    computed. *)
Theorem C58_entries_of_one_size c s : 0 < s -> Forall (fun v => value_bytes (c_type c) v = s) (c_values c) ->
  let n := Z.max 1 (32767 / s) in
  (exists full rest, in_baskets c = full ++ [rest] /\ Forall (fun p => zlen p = n) full /\ zlen rest < n) /\
  zlen (in_baskets c) = zlen (c_values c) / n + 1.
Proof.
  intros SP H. cbv zeta. unfold in_baskets.
  assert (P1 : 1 <= per s) by apply Z.le_max_l.
  destruct (cut_same _ (value_bytes_nonneg (c_type c)) s SP (c_values c) [] H) as (init & lst & E & F1 & F2); [rewrite (@zlen_nil val); lia|].
  split; [exists init, lst; auto|]. pose proof (cut_concat (value_bytes (c_type c)) (c_values c) []) as C. rewrite E in *. cbn [app] in C.
  rewrite <- C, concat_app. cbn [concat]. rewrite app_nil_r, !zlen_app, (concat_same _ _ F1), zlen_cons, (@zlen_nil (list val)).
  fold (per s). pose proof (zlen_nonneg lst). rewrite (Z.mul_comm (per s)), Z.add_comm with (n := _ * _), Z_div_plus_full by lia. rewrite Z.div_small by lia. lia.
Qed.

(** ** In memory *)

(** A column as it can be while a tree is written: new, or after some calls of the
    writer, with whatever happens to the file in between. *)
Inductive reached (tree_name : bytes) : wcol -> Prop :=
| reached_new name t it c sis : wcol_new name t it = Ok (c, sis) -> reached tree_name c
| reached_write c f f' c' o : reached tree_name c -> wcol_write tree_name c f = (f', Ok (c', o)) -> reached tree_name c'.

Lemma reached_small tn c : reached tn c -> b_bsize (wc_core c) = 32768 /\ forall wb, wc_basket c = Some wb -> zlen (wp (wb_buf wb)) < 32768.
Proof.
  induction 1 as [name t it c sis H|c f f' c' o _ (IH1 & IH2) H].
  - unfold wcol_new in H. cbv zeta in H. apply rbind_inv in H as (l & _ & H).
    destruct t; try (injection H as <- _; split; [reflexivity|cbn [wc_basket]; discriminate]).
    apply rbind_inv in H as (si & _ & H). injection H as <- _. split; [reflexivity|cbn [wc_basket]; discriminate].
  - assert (NC : forall c1 c2 g g', b_bsize (wc_core c1) = 32768 -> create_new_basket tn c1 g = (g', Ok c2) ->
      b_bsize (wc_core c2) = 32768 /\ forall wb, wc_basket c2 = Some wb -> zlen (wp (wb_buf wb)) < 32768).
    { intros c1 c2 g g' B C. unfold create_new_basket in C. cbv zeta in C. destruct (negb _); [discriminate|].
      apply fbind_inv in C as (g1 & wb & HX & C). apply fgets_inv in HX as [-> HW]. injection C as <- <-. split; [exact B|].
      cbn [wc_basket]. intros wb0 E. injection E as <-. rewrite HW. reflexivity. }
    unfold wcol_write in H. apply fbind_inv in H as (f1 & c1 & H1 & H).
    assert (S1 : b_bsize (wc_core c1) = 32768 /\ forall wb, wc_basket c1 = Some wb -> zlen (wp (wb_buf wb)) < 32768).
    { destruct (wc_basket c) eqn:E0; [injection H1 as <- <-; split; [exact IH1|rewrite E0; exact IH2]|exact (NC _ _ _ _ IH1 H1)]. }
    clear IH1 IH2 H1. destruct S1 as (B1 & B2). destruct (wc_basket c1) as [wb|] eqn:EB; [|discriminate].
    destruct (hd None (wc_it c1)) as [v|]; [|injection H as <- <- <-; cbn [wc_core wc_basket]; auto].
    apply fbind_inv in H as (f2 & [c2 n] & H2 & H). injection H as <- <- _. cbn [fst].
    unfold write_entry in H2. cbv zeta in H2. cbn [wc_core wc_leaf wc_ty wc_elem wc_it] in H2.
    apply fbind_inv in H2 as (f3 & b & HX & H2). apply flift_inv in HX as [-> _].
    apply fbind_inv in H2 as (f3 & ls & HX & H2). apply flift_inv in HX as [-> _].
    destruct (2 ^ 64 <=? _); [discriminate|]. rewrite B1 in H2.
    destruct (Z.leb_spec 32768 (zlen (wp (snd ls)) + to_u64 (to_i32 (zlen (wp (snd ls)) - zlen (wp (wb_buf wb)))))) as [L|L].
    + apply fbind_inv in H2 as (f3 & c3 & HF & H2). apply fbind_inv in H2 as (f4 & c4 & HN & H2). injection H2 as <- <- _.
      apply (NC _ _ _ _) in HN; [exact HN|]. unfold flush in HF. cbn [wc_basket] in HF.
      apply fbind_inv in HF as (g1 & [k wb'] & _ & HF). apply fbind_inv in HF as (g2 & ? & HX & HF). apply flift_inv in HX as [-> _]. injection HF as <- <-. exact B1.
    + injection H2 as <- <- _. cbn [wc_core wc_basket bc_set b_bsize]. split; [exact B1|]. intros wb0 E. injection E as <-. cbn [wb_buf].
      assert (0 <= to_u64 (to_i32 (zlen (wp (snd ls)) - zlen (wp (wb_buf wb))))) by (unfold to_u64, wrap_u; apply Z.mod_pos_bound; reflexivity). lia.
Qed.

(** Between two rows a column keeps less than 32768 bytes of data in memory, however long
    the column and its entries are. *)
Theorem C58_writing_holds_little tree_name c wb : reached tree_name c -> wc_basket c = Some wb -> zlen (wp (wb_buf wb)) < 32768.
Proof. intros R E. exact (proj2 (reached_small _ _ R) wb E). Qed.

(** ** The limit *)

(** A column of more than 32767 baskets cannot be written. *)
Theorem C58_at_most_32767_baskets path ts f es t c : Forall table_ok ts -> In t ts -> In c (columns (tb_setup t)) ->
  session real_db path (map calls ts) = (f, Ok es) -> zlen (in_baskets c) <= 32767.
Proof.
  intros T IT IC H. unfold session in H. destruct (create path) as [f0 r0]. apply fbind_inv in H as (f1 & [] & _ & H).
  apply fbind_inv in H as (f2 & es1 & H & _). pose proof (trees_few _ _ T _ _ _ H) as X. rewrite Forall_forall in X. specialize (X t IT).
  rewrite Forall_forall in X. exact (proj1 (X c IC)).
Qed.

(** For all that fits into a file there are three limits and no others: it can be written
    if and only if no tree has a slash in its name, no column has more than 32767 baskets,
    and the positions of the entries of every basket fit into its table. *)
Lemma total_ge {A} (g : A -> Z) l a : (forall x, 0 <= g x) -> In a l -> g a <= total g l.
Proof.
  intros N. induction l as [|b l IH]; intros H; [destruct H|]. cbn [total].
  assert (0 <= total g l) by (clear - N; induction l as [|x l IH]; cbn [total]; [lia|specialize (N x); lia]).
  destruct H as [->|H]; [lia|]. specialize (IH H). specialize (N b). lia.
Qed.
Lemma room_above path ts t c v : In t ts -> In c (columns (tb_setup t)) -> In v (c_values c) -> value_bytes (c_type c) v <= room path ts.
Proof.
  intros IT IC IV.
  assert (CN : forall c, 0 <= column_bytes c) by (intros c0; apply total_nonneg; apply value_bytes_nonneg).
  assert (RN : forall tn c, column_bytes c <= column_room tn c).
  { intros tn c0. unfold column_room, baskets. specialize (CN c0). pose proof (zlen_nonneg (c_values c0)). pose proof (zlen_nonneg (c_name c0)). pose proof (zlen_nonneg tn).
    pose proof (Z.div_pos (column_bytes c0) 16384 ltac:(lia) ltac:(lia)). nia. }
  assert (TN : forall t, total (column_room (tb_name t)) (columns (tb_setup t)) <= table_room t).
  { intros t0. unfold table_room. pose proof (zlen_nonneg (tb_name t0)). lia. }
  assert (RP : forall tn c, 0 <= column_room tn c) by (intros; eapply Z.le_trans; [apply CN|apply RN]).
  assert (A1 : value_bytes (c_type c) v <= column_bytes c) by (apply total_ge; [apply value_bytes_nonneg|exact IV]).
  pose proof (total_ge (column_room (tb_name t)) _ c (RP _) IC) as A2.
  assert (TP : forall t, 0 <= table_room t) by (intros t0; eapply Z.le_trans; [apply (total_nonneg (column_room (tb_name t0)) (columns (tb_setup t0)) (RP _))|apply TN]).
  pose proof (total_ge table_room ts t TP IT) as A3. unfold room. specialize (RN (tb_name t) c). specialize (TN t). pose proof (zlen_nonneg path). lia.
Qed.
Theorem C58_what_can_be_written path ts : user_path path -> Forall table_ok ts -> room path ts <= 2000000000 ->
  (exists f es, session real_db path (map calls ts) = (f, Ok es)) <->
  (forall t, In t ts -> ~ In 47 (tb_name t) /\
     forall c, In c (columns (tb_setup t)) -> zlen (in_baskets c) <= 32767 /\ all_positions_fit c).
Proof.
  intros U T R. split.
  - intros (f & es & H) t IT. split.
    { intros SL. unfold session in H. destruct (create path) as [f0 r0]. apply fbind_inv in H as (f1 & [] & _ & H).
      apply fbind_inv in H as (f2 & es1 & H & _). clear - H IT SL. revert f1 f2 es1 H.
      induction ts as [|u ts IH]; intros f1 f2 es1 H; [destruct IT|]. cbn [map write_trees] in H.
      apply fbind_inv in H as (g1 & e & H1 & H). apply fbind_inv in H as (g2 & es2 & H2 & H).
      destruct IT as [->|IT]; [|exact (IH IT _ _ _ H2)].
      apply (proj2 (Refused.tree_slash real_db (calls t) f1 SL) e). rewrite H1. reflexivity. }
    intros c IC. split; [exact (C58_at_most_32767_baskets path ts f es t c T IT IC H)|].
    unfold session in H. destruct (create path) as [f0 r0]. apply fbind_inv in H as (f1 & [] & _ & H).
    apply fbind_inv in H as (f2 & es1 & H & _). pose proof (trees_few _ _ T _ _ _ H) as X. rewrite Forall_forall in X. specialize (X t IT).
    rewrite Forall_forall in X. apply (X c IC). apply Forall_forall. intros v IV. pose proof (room_above path ts t c v IT IC IV). lia.
  - intros B. destruct (RoomFacts.fits_any path ts U T) as (es & f & F & _); [|exact R|eauto].
    apply Forall_forall. intros t IT. destruct (B t IT) as (B1 & B2). split; [exact B1|].
    apply Forall_forall. intros c IC. destruct (B2 c IC). auto.
Qed.
(** Simple conditions for the second: no entry is longer than 1000 bytes, there are at most
    1000 entries, or none is shorter than 33 bytes. *)
Theorem C58_steady_columns_fit c : steady c -> all_positions_fit c.
Proof. exact (RoomFacts.steady_fits c). Qed.
(** Both sides occur: 1000 short strings can follow one of 1001 bytes but not one of 1002. *)
Definition long_first (n : nat) : column := Column (bs "s") TString (VStr (repeat 97 n) :: repeat (VStr []) 1000).
Lemma long_first_basket n : n = 996%nat \/ n = 997%nat -> in_baskets (long_first n) = [c_values (long_first n)] /\
  map (value_bytes TString) (c_values (long_first n)) = (5 + Z.of_nat n) :: repeat 1 1000.
Proof. intros [-> | ->]; (split; vm_compute; reflexivity). Qed.
Lemma first_fits n r : positions_fit 1000 0 0 (n :: r) <->
  (n <= 1001 \/ 0 + zlen (n :: r) <= 1000) /\ positions_fit 1000 (if n =? 1001 then 1 else 0) 1 r.
Proof. reflexivity. Qed.
Lemma ones_fit k S l b : 1000 <= S -> 0 <= l -> positions_fit S l b (repeat 1 k).
Proof. intros HS HL. apply RoomFacts.short_fit; [|exact HS|exact HL]. apply Forall_forall. intros x H. apply repeat_spec in H. subst x. discriminate. Qed.
Example just_fits : all_positions_fit (long_first 996).
Proof.
  unfold all_positions_fit. cbn [long_first c_type]. destruct (long_first_basket 996 ltac:(auto)) as (-> & E). constructor; [|constructor].
  rewrite E. apply (proj2 (first_fits _ _)). split; [left; discriminate|]. apply ones_fit; discriminate.
Qed.
Lemma first_does_not n r : 1001 < n -> 1000 <= zlen r -> ~ positions_fit 1000 0 0 (n :: r).
Proof. intros A B H. apply (proj1 (first_fits n r)) in H as ([H|H] & _); [lia|]. rewrite zlen_cons in H. lia. Qed.
Example just_does_not_fit : ~ all_positions_fit (long_first 997).
Proof.
  destruct (long_first_basket 997 ltac:(auto)) as (E1 & E2). unfold all_positions_fit. change (c_type (long_first 997)) with TString. cbv iota.
  intros H. rewrite E1 in H. apply Forall_inv in H. rewrite E2 in H. revert H. apply first_does_not; [reflexivity|].
  vm_compute. discriminate.
Qed.

(** So there are tables that would fit into a file, by the measure of C45, and cannot be
    written: 134180865 numbers of 8 bytes, about 1 GB.  One number less can be written. *)
Definition numbers (k : nat) : table := Table (bs "t") [AddColumn (Column (bs "x") (TPrim F64) (repeat (VInt 0) k))].
Lemma numbers_fit k : Z.of_nat k <= 134180865 ->
  Forall table_ok [numbers k] /\ room path0 [numbers k] <= 2000000000 /\
  Forall (fun t => ~ In 47 (tb_name t)) [numbers k] /\
  zlen (in_baskets (Column (bs "x") (TPrim F64) (repeat (VInt 0) k))) = Z.of_nat k / 4095 + 1.
Proof.
  intros K. assert (ZR : zlen (repeat (VInt 0) k) = Z.of_nat k) by (rewrite zlen_def, repeat_length; reflexivity).
  split; [|split; [|split]].
  - constructor; [|constructor]. split; [sample|]. split; [sample|]. cbn [numbers tb_setup columns]. constructor; [|constructor].
    split; [exact I|]. split; [sample|]. split; [sample|]. cbn [c_type c_values].
    apply Forall_forall. intros v J. apply repeat_spec in J. subst v. constructor. sample.
  - unfold room, table_room, column_room, baskets, column_bytes. cbn [numbers total tb_setup tb_name columns c_name c_type c_values].
    rewrite total_repeat, ZR. cbn [value_bytes]. change (Z.of_nat (scalar_bytes F64)) with 8.
    change (zlen (bs "x")) with 1. change (zlen (bs "t")) with 1. change (zlen path0) with 6.
    pose proof (Z.div_le_mono (Z.of_nat k * 8) 1073446920 16384 ltac:(lia) ltac:(lia)) as D. change (1073446920 / 16384) with 65518 in D. lia.
  - constructor; [|constructor]. vm_compute. intros [X|[]]; discriminate X.
  - destruct (C58_entries_of_one_size (Column (bs "x") (TPrim F64) (repeat (VInt 0) k)) 8) as (_ & E); [lia|apply Forall_forall; intros v J; reflexivity|].
    rewrite E. cbn [c_values]. rewrite ZR. reflexivity.
Qed.
Example one_number_less k : Z.of_nat k = 134180864 -> exists f es, session real_db path0 (map calls [numbers k]) = (f, Ok es).
Proof.
  intros K. destruct (numbers_fit k ltac:(lia)) as (T & R & S & B).
  apply C58_what_can_be_written; [split; sample|exact T|exact R|].
  intros t [<-|[]]. split; [inversion S; assumption|]. intros c [<-|[]]. split; [rewrite B, K; vm_compute; discriminate|exact I].
Qed.
Theorem C58_what_fits_is_written_refuted : exists path ts, user_path path /\ short_path path /\ Forall table_ok ts /\ room path ts <= 2000000000 /\
  Forall (fun t => ~ In 47 (tb_name t) /\ Forall all_positions_fit (columns (tb_setup t))) ts /\
  forall f es, session real_db path (map calls ts) <> (f, Ok es).
Proof.
  destruct (Z_of_nat_complete 134180865 ltac:(discriminate)) as (k & K). symmetry in K.
  destruct (numbers_fit k ltac:(lia)) as (T & R & S & B).
  exists path0, [numbers k]. split; [split; sample|]. split; [vm_compute; discriminate|]. split; [exact T|]. split; [exact R|].
  split; [constructor; [split; [inversion S; assumption|repeat constructor]|constructor]|]. intros f es H. pose proof (C58_at_most_32767_baskets _ _ f es _ _ T (or_introl eq_refl) (or_introl eq_refl) H) as L.
  rewrite B, K in L. vm_compute in L. apply L. reflexivity.
Qed.

(** Hypotheses are met: columns of several baskets are in finished files ... *)
Example two_baskets k : Z.of_nat k = 5000 -> exists es f,
  finished path0 [Table (bs "t") [AddColumn (Column (bs "x") (TPrim F64) (repeat (VInt 4607182418800017408) k))]] es f /\
  exists a b, in_baskets (Column (bs "x") (TPrim F64) (repeat (VInt 4607182418800017408) k)) = [a; b] /\ zlen a = 4095 /\ zlen b = 905.
Proof.
  intros K. destruct (long_column k ltac:(lia)) as (es & f & F). exists es, f. split; [exact F|].
  set (c := Column _ _ _). assert (L : zlen (c_values c) = 5000) by (unfold c; cbn [c_values]; rewrite zlen_def, repeat_length; exact K).
  destruct (C58_entries_of_one_size c 8) as ((full & rest & E & F1 & F2) & N); [lia|apply Forall_forall; intros v _; reflexivity|].
  rewrite L in N. change (Z.max 1 (32767 / 8)) with 4095 in *. change (5000 / 4095 + 1) with 2 in N. rewrite E in N. rewrite zlen_app, zlen_cons, (@zlen_nil (list val)) in N.
  destruct full as [|a [|a' full]]; [rewrite (@zlen_nil (list val)) in N; discriminate N| |rewrite !zlen_cons in N; pose proof (zlen_nonneg full); lia].
  exists a, rest. rewrite E. split; [reflexivity|]. inversion F1 as [|? ? A _]; subst. split; [exact A|].
  pose proof (proj1 (C58_how_full c)) as C. rewrite E in C. cbn [app concat] in C. rewrite app_nil_r in C. rewrite <- C, zlen_app, A in L. lia.
Qed.
(** ... also with entries of different lengths: one long string fills a basket, the
    short ones before it go with it. *)
Example words : map zlen (in_baskets (Column (bs "s") TString (map VStr [repeat 97 3; repeat 97 (Z.to_nat 20000); repeat 97 5; repeat 97 6]))) = [2; 2].
Proof. vm_compute. reflexivity. Qed.
(** A column after one call holds the entry. *)
Example some_column : exists c wb, reached (bs "t") c /\ wc_basket c = Some wb /\ wp (wb_buf wb) = [1; 97].
Proof.
  destruct (wcol_new (bs "x") TString [Some (VStr [97])]) as [[c sis]| | | |] eqn:N; [|discriminate N ..].
  destruct (wcol_write (bs "t") c (FileLay.file0 path0)) as [f r] eqn:E.
  assert (X : match r with Ok (c', _) => option_map (fun wb => wp (wb_buf wb)) (wc_basket c') | _ => None end = Some [1; 97]).
  { injection N as <- _. vm_compute in E. injection E as _ <-. reflexivity. }
  destruct r as [[c' o]| | | |]; [|discriminate X ..]. destruct (wc_basket c') as [wb|] eqn:B; [|discriminate X]. injection X as X.
  exists c', wb. split; [exact (reached_write _ _ _ _ _ _ (reached_new _ _ _ _ _ _ N) E)|]. split; [exact B|exact X].
Qed.
