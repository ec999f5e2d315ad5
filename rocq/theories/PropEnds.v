(** Reading ends, whatever the bytes of the file. *)
From Verif Require Import Base Bytes RBuf Values Key Obj TreeObj File Column ColRead SliceRead Derive StreamerDb SpecEnds Sample ColOps PropRead Decomp.
From Verif Require Import Term TermRead TermCol TermZip TermIter.

(** ** C46: reading ends *)

#[local] Instance decoders_end_of L : decoders_finish L -> decoders_end L.
Proof. intros (H1 & H2 & H3). split; assumption. Qed.

(** Opening any sequence of bytes ends, and so does looking for any object in it. *)
Theorem C46_opening_any_file_ends {L : decoders} d : decoders_finish L -> finishes (open_file d).
Proof. intros HL. apply decoders_end_of in HL. apply open_ends. Qed.
Theorem C46_reading_any_object_ends {L : decoders} d f name : decoders_finish L -> open_file d = Ok f -> finishes (get_object f name) /\ finishes (get_tree f name).
Proof. intros HL _. apply decoders_end_of in HL. split; [apply get_object_ends|apply get_tree_ends]. Qed.
(** The bound on the depth of the objects that is built into the model is not what makes
    it end: with any larger one the same objects are read from the same bytes. *)
Theorem C46_more_steps_change_nothing off class buf n : (length buf < n)%nat ->
  rrun off (um n class) buf = rrun off (um (S (length buf)) class) buf.
Proof. apply um_enough. Qed.

Lemma takes_iff t : takes_bytes t <-> takes t = true.
Proof.
  induction t as [p| |t IH|n t IH]; cbn [takes_bytes takes]; try (split; [reflexivity|exact (fun _ => I)]).
  rewrite IH, andb_true_iff, negb_true_iff, Nat.eqb_neq. reflexivity.
Qed.
Lemma announces_solid c : announces c -> solid c.
Proof.
  destruct c as [n s buf|]; cbn [announces solid]; [|auto]. unfold to_u64, wrap_u. change (256 ^ Z.of_nat 8) with (2 ^ 64).
  intros [H|H]; [left|right]; rewrite Z.mod_small by lia; lia.
Qed.
Lemma announce_solid {L : decoders} d sis b : subs_announce d sis b -> solid_subs d sis b.
Proof. intros H s chs I E. eapply Forall_impl; [|exact (H s chs I E)]. apply announces_solid. Qed.

(** Reading a column as values of any type ends, for every branch, with sub-branches or
    not, whatever is in its baskets. *)
Theorem C46_reading_any_column_ends {L : decoders} d sis t b : decoders_finish L -> takes_bytes t -> finishes (as_iter d sis t b).
Proof. intros HL T. apply decoders_end_of in HL. apply as_iter_ends. left. now apply takes_iff. Qed.
(** Types that take no bytes are fine too without sub-branches. *)
Theorem C46_reading_empty_values_ends {L : decoders} d sis t b : decoders_finish L -> br_subs b = [] -> finishes (as_iter d sis t b).
Proof. intros HL E. apply decoders_end_of in HL. apply as_iter_ends. now right; left. Qed.

(** Slices. *)
Theorem C46_reading_any_slices_ends {L : decoders} d sis t b : decoders_finish L -> takes_bytes t -> br_subs b = [] \/ subs_announce d sis b ->
  finishes (as_iter_slice d sis t b).
Proof.
  intros HL T H. apply decoders_end_of in HL. apply as_iter_slice_ends; [now apply takes_iff|]. destruct H as [H|H]; [now left|right; now apply announce_solid].
Qed.

(** Structures. *)
Lemma all_take_iff w : all_take_bytes w -> all_take w = true.
Proof.
  induction w as [t|g fs IH|g fs] using rty_rec'; intros H; inversion H; subst; cbn [all_take].
  - now apply takes_iff.
  - rewrite forallb_forall. intros f I. rewrite Forall_forall in *. auto.
  - rewrite forallb_forall. intros f I. rewrite Forall_forall in *. apply takes_iff. auto.
Qed.
Lemma has_column_iff w : has_a_column w -> has_column w = true.
Proof.
  induction 1 as [t|g fs f w I _ IH|g fs]; cbn [has_column]; auto. apply existsb_exists. now exists (f, w).
Qed.
Theorem C46_reading_any_structures_ends {L : decoders} d sis t w : decoders_finish L -> has_a_column w -> all_take_bytes w ->
  (forall n b, tree_branch t n = Some b -> br_subs b = [] \/ subs_announce d sis b) ->
  finishes (from_tree d sis t w).
Proof.
  intros HL C T S. apply decoders_end_of in HL. apply from_tree_ends; [now apply has_column_iff|now apply all_take_iff|right]. intros n b E.
  destruct (S n b E) as [H|H]; [now left|right; now apply announce_solid].
Qed.

(** A file whose length is cut or whose bytes are not those of a ROOT file at all. *)
Example no_decoders_finish : decoders_finish no_decoders.
Proof. repeat split; intros; discriminate. Qed.
Example short0 : finishes (open_file (firstn 300 disk0)) /\ finishes (open_file (repeat 255 100)).
Proof. split; apply C46_opening_any_file_ends, no_decoders_finish. Qed.
Example announces0 : br_subs parent0 <> [] /\ subs_announce disk0 [] parent0.
Proof.
  split; [discriminate|]. intros s chs [<-|[<-|[]]] E; vm_compute in E; injection E as <-; repeat (constructor; [left; vm_compute; split; [reflexivity|reflexivity]|]); constructor.
Qed.

(** A structure without columns never ends, however long one waits. *)
Definition no_fields : rty := RStruct None [].
Theorem C46_structure_without_columns_refuted d sis t :
  exists i, from_branch_tree d sis t bn_new no_fields = Ok i /\ forall n, it_collect n i = OutOfFuel.
Proof.
  exists (ItStruct []). split; [reflexivity|]. induction n as [|n IH]; [reflexivity|]. cbn [it_collect it_next rbind]. now rewrite IH.
Qed.

(** A slice of a type that takes no bytes never ends. *)
Theorem C46_slices_of_nothing_refuted t r n : 0 < r_len r -> slice_loop (unmarshal (TArr 0 t)) n (r_len r) [] r = OutOfFuel.
Proof.
  generalize (@nil val) as l. intros l H. revert l. induction n as [|n IH]; intros l; cbn [slice_loop].
  - now destruct (Z.leb_spec (r_len r) 0); [lia|].
  - destruct (Z.leb_spec (r_len r) 0); [lia|]. cbn [unmarshal repeatM bind ret]. rewrite Z.sub_diag, Z.sub_0_r.
    destruct (Z.ltb_spec (r_len r) 0); [lia|]. apply IH.
Qed.

(** Neither does a branch of slices over a sub-branch whose basket announces no entries
    of no size.  The file is one such basket. *)
Definition hollow_disk : bytes :=
  [0; 0; 0; 63; 0; 4; 0; 0; 0; 1; 109; 222; 78; 143; 0; 62; 0; 1; 0; 0;
   0; 0; 0; 0; 0; 100; 7; 84; 66; 97; 115; 107; 101; 116; 1; 121; 6;
   101; 118; 101; 110; 116; 115; 0; 3; 0; 0; 128; 0; 0; 0; 0; 1; 0; 0;
   0; 0; 0; 0; 0; 63; 0; 1].
Definition hollow_sub : branch :=
  Br false (ccore (bs "y") (TPrim U8) 1 0 1 63 [63] [0] [0]) None [] [mkLeaf LKB (mkTL (new_named (bs "y") (bs "y")) 1 0 0 false true) 0 0] [].
Definition hollow : branch :=
  Br true (ccore (bs "p") (TPrim U8) 1 0 1 0 [] [] []) None [hollow_sub] [mkLeaf LKB (mkTL (new_named (bs "p") (bs "p[n]")) 1 1 0 false true) 0 0] [].
Theorem C46_hollow_sub_branches_refuted :
  existsb (beqb (bs "uint8_t[]")) (slice_classes (TPrim U8)) = true /\ item_type_name [] hollow = Ok (bs "uint8_t[]") /\
  (exists its, res_map (fun s => baskets_buffer hollow_disk [] (as_base s)) (br_subs hollow) = Ok its /\
    forall n, zip_collect (fun buf => unwrap (rrun 0 (unmarshal_slice (unmarshal (TPrim U8))) buf)) n (mkZip its [] [] []) = OutOfFuel) /\
  as_iter_slice hollow_disk [] (TPrim U8) hollow = OutOfFuel.
Proof.
  split; [vm_compute; reflexivity|]. split; [vm_compute; reflexivity|]. split; [|vm_compute; reflexivity].
  exists [[Regular 0 0 [1]]]. split; [vm_compute; reflexivity|].
  intros [|n]; [reflexivity|]. cbn [zip_collect].
  assert (ZN : forall c, 0 <= c -> zip_next (mkZip [[]] [Some (Regular 0 0 [1])] [c] [0]) = Ok (Some [], mkZip [[]] [Some (Regular 0 0 [1])] [c + 1] [0])).
  { intros c Hc. unfold zip_next. cbn [z_out z_cur existsb forallb is_regular negb andb length zip_loop nth_error z_nb z_its].
    change (to_u64 0) with 0. rewrite !Z.mul_0_r. change (slice [1] 0 0) with (Ok (@nil Z)). cbn [rbind upd].
    destruct (Z.eqb_spec (c + 1) 0); [lia|]. reflexivity. }
  assert (C : forall n c, 0 <= c -> zip_collect (fun buf => unwrap (rrun 0 (unmarshal_slice (unmarshal (TPrim U8))) buf)) n
                (mkZip [[]] [Some (Regular 0 0 [1])] [c] [0]) = OutOfFuel).
  { clear n. induction n as [|n IH]; intros c Hc; [reflexivity|]. cbn [zip_collect]. rewrite ZN by exact Hc. cbn [rbind].
    change (unwrap (rrun 0 (unmarshal_slice (unmarshal (TPrim U8))) [])) with (Ok (@nil val)). cbn [rbind]. rewrite IH by lia. reflexivity. }
  change (zip_next (mkZip [[Regular 0 0 [1]]] [] [] [])) with (Ok (Some (@nil Z), mkZip [[]] [Some (Regular 0 0 [1])] [1] [0])). cbn [rbind].
  change (unwrap (rrun 0 (unmarshal_slice (unmarshal (TPrim U8))) [])) with (Ok (@nil val)). cbn [rbind]. rewrite C by lia. reflexivity.
Qed.
