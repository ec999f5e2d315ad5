(** Opening a file and reading its objects and columns always ends. *)
From Verif Require Export Term.

(** ** Opening *)
Lemma ends_ok {A} (a : A) : ends (Ok a). Proof. discriminate. Qed.
Lemma ends_err {A} e : ends (@Err A e). Proof. discriminate. Qed.
Lemma ends_panic {A} : ends (@Panic A). Proof. discriminate. Qed.
Lemma ends_unmodelled {A} : ends (@Unmodelled A). Proof. discriminate. Qed.
#[export] Hint Resolve ends_ok ends_err ends_panic ends_unmodelled : ends.

Lemma ends_read_at d p n : ends (read_at d p n).
Proof. unfold read_at. cbv zeta. repeat match goal with |- ends (if ?b then _ else _) => destruct b end; auto with ends. Qed.
Lemma ends_u64_add a b : ends (u64_add a b).
Proof. unfold u64_add. destruct (_ <? _); auto with ends. Qed.
Lemma ends_u64_sub a b : ends (u64_sub a b).
Proof. unfold u64_sub. destruct (_ <=? _); auto with ends. Qed.

(** The decoders end. *)
Class decoders_end (L : decoders) : Prop := {
  zlib_ends s : ends (zlib_out s);
  xz_ends s : ends (xz_out s);
  lz4_ends s n : ends (lz4_out s n)
}.
#[export] Instance no_decoders_end : decoders_end no_decoders.
Proof. split; intros; apply ends_unmodelled. Qed.

Section WithDecoders.
Context {LIB : decoders} {HLIB : decoders_end LIB}.

Lemma ends_read_exact n out : ends (read_exact n out).
Proof. unfold read_exact. destruct (_ <? _); auto with ends. Qed.
Lemma ends_decompress_loop fuel : forall n fin dst src, (length src < fuel)%nat -> ends (decompress_loop fuel n fin dst src).
Proof.
  induction fuel as [|f IH]; intros n fin dst src H; [lia|]. cbn [decompress_loop].
  destruct (n <=? fin); [auto with ends|]. destruct (Z.ltb_spec (zlen src) 9) as [|G]; [auto with ends|]. cbv zeta.
  destruct (kind_of (firstn 9 src)).
  - apply ends_rbind; [apply zlib_ends|]. intros. apply ends_read_exact.
  - apply ends_rbind; [apply xz_ends|]. intros. apply ends_rbind; [apply ends_read_exact|]. intros. apply IH.
    rewrite zlen_def in G. rewrite skipn_length. lia.
  - destruct (_ <? 8); [auto with ends|]. apply ends_rbind; [apply lz4_ends|]. intros [out|] _; auto with ends.
  - auto with ends.
Qed.
Lemma ends_decompress n src : ends (decompress n src).
Proof. apply ends_decompress_loop. lia. Qed.
Lemma ends_key_bytes d k : ends (key_bytes d k).
Proof.
  unfold key_bytes. destruct (_ =? _); [|destruct (_ <? -2147483648); [auto with ends|destruct (_ <? 0); [auto with ends|]]].
  - apply ends_rbind; [apply ends_u64_add|]. intros. apply ends_read_at.
  - apply ends_rbind; [apply ends_u64_add|]. intros. apply ends_rbind; [apply ends_u64_sub|]. intros.
    apply ends_rbind; [apply ends_read_at|]. intros. apply ends_decompress.
Qed.
Lemma ends_key_object d k : ends (key_object d k).
Proof.
  unfold key_object. apply ends_rbind; [apply ends_key_bytes|]. intros buf _.
  destruct (negb _); [auto with ends|]. apply ends_um.
Qed.
Lemma ends_same_run {A} off (m : R A) buf : (forall N, same N m m) -> ends (rrun off m buf).
Proof. intros H. apply (ends_rrun off m buf (zlen buf + 1)); [apply H|lia]. Qed.

(** A free segment takes two bytes at least. *)
Lemma read_sint_inv n r x r' : read_sint n r = Ok (x, r') ->
  r' = r_set_c r (rc r + Z.of_nat n) /\ 0 <= rc r /\ rc r + Z.of_nat n <= zlen (rp r).
Proof.
  unfold read_sint. intros H. apply bind_inv in H as (b & s & H1 & H2). apply extract_inv in H1 as (-> & ? & ? & ?).
  unfold ret in H2. injection H2 as _ H2. subst. auto.
Qed.
Lemma same_seg N : same N seg_unmarshal seg_unmarshal.
Proof. unfold seg_unmarshal. same_run. Qed.
Lemma seg_takes r s r' : seg_unmarshal r = Ok (s, r') -> rp r' = rp r /\ rc r + 2 <= rc r'.
Proof.
  unfold seg_unmarshal. intros H. apply bind_inv in H as (v & r1 & H1 & H2).
  apply read_sint_inv in H1 as (-> & ? & ?). change (Z.of_nat 2) with 2 in *.
  match type of H2 with ?m ?s = _ =>
    assert (K : same (left_of s + 1) m m) by same_run;
    destruct (K s ltac:(lia)) as [_ O]; rewrite H2 in O end.
  destruct O as [O1 O2]. cbn in *. split; [exact O1|lia].
Qed.
Lemma spans_end n : forall r, 0 < Z.of_nat n -> left_of r < Z.of_nat n -> onward r (read_spans n r).
Proof.
  induction n as [|n IH]; intros r Hn Hr; [lia|]. cbn [read_spans].
  unfold gets, bind at 1. unfold r_is_empty, r_len.
  destruct (Z.leb_spec (zlen (rp r) - rc r) 0); [cbn; split; [reflexivity|lia]|].
  unfold bind at 1. destruct (same_seg (left_of r + 1) r ltac:(lia)) as [_ O].
  destruct (seg_unmarshal r) as [[s r1]| | | |] eqn:E; cbn [onward] in *; auto.
  apply seg_takes in E as [E1 E2]. unfold bind.
  specialize (IH r1). unfold left_of in *. rewrite E1 in IH.
  specialize (IH ltac:(lia) ltac:(lia)).
  destruct (read_spans n r1) as [[l r2]| | | |]; cbn [onward ret] in *; auto.
  destruct IH as [I1 I2]. split; [congruence|lia].
Qed.

Lemma same_fhdr N : same N fhdr_unmarshal fhdr_unmarshal.
Proof. unfold fhdr_unmarshal. same_run. Qed.
Lemma same_dir N : same N dir_unmarshal dir_unmarshal.
Proof. unfold dir_unmarshal. same_run. Qed.

Ltac ends_go :=
  repeat first
    [ apply ends_read_at | apply ends_u64_add | apply ends_key_bytes | apply ends_key_object
    | lazymatch goal with
      | |- ends (rbind _ _) => apply ends_rbind; [|intros]
      | |- ends (if ?b then _ else _) => destruct b
      | |- ends (match ?x with _ => _ end) => destruct x
      | |- ends (rrun _ _ _) => apply ends_same_run; intros
      end ]; auto with ends.

Lemma ends_dir_info d h : ends (read_dir_info d h).
Proof. unfold read_dir_info. ends_go; try apply same_dir; same_run. Qed.
Lemma ends_spans d h : ends (read_free_segments d h).
Proof.
  unfold read_free_segments. apply ends_rbind; [apply ends_read_at|]. intros buf _.
  apply ends_rbind; [apply ends_same_run; intros; apply same_key|]. intros k _.
  apply ends_rbind; [apply ends_key_bytes|]. intros b _.
  pose proof (spans_end (S (length b)) (r_new b 0)) as H. unfold left_of in H. cbn [rp rc r_new] in H.
  rewrite zlen_def in H. specialize (H ltac:(lia) ltac:(lia)).
  unfold rrun, ends. destruct (read_spans _ _) as [[a r]| | | |]; cbn in *; try discriminate. contradiction.
Qed.
Lemma ends_pick l : ends (pick_sinfos l).
Proof.
  induction l as [|o l IH]; cbn [pick_sinfos]; [auto with ends|].
  destruct o; auto with ends. apply ends_rbind; [exact IH|]. auto with ends.
Qed.
Lemma ends_sinfos d h : ends (read_sinfos d h).
Proof.
  unfold read_sinfos. destruct (_ || _); [auto with ends|].
  apply ends_rbind; [apply ends_read_at|]. intros buf _.
  apply ends_rbind; [apply ends_same_run; intros; apply same_key|]. intros k _.
  apply ends_rbind; [apply ends_key_object|]. intros o _. destruct o; auto with ends. apply ends_pick.
Qed.
Lemma ends_keys d dir : ends (read_keys d dir).
Proof.
  unfold read_keys. ends_go; same_run; apply same_key.
Qed.
Lemma open_ends d : ends (open_file d).
Proof.
  unfold open_file. apply ends_rbind; [apply ends_read_at|]. intros buf _.
  apply ends_rbind; [apply ends_same_run; intros; apply same_fhdr|]. intros h _.
  apply ends_rbind; [apply ends_dir_info|]. intros dir _.
  apply ends_rbind; [destruct (_ <? _); [apply ends_spans|auto with ends]|]. intros sp _.
  apply ends_rbind; [destruct (_ <? _); [apply ends_sinfos|auto with ends]|]. intros si _.
  apply ends_rbind; [apply ends_keys|]. auto with ends.
Qed.
Lemma get_object_ends f name : ends (get_object f name).
Proof.
  unfold get_object. apply ends_rbind; [unfold freader; destruct (f_io f); auto with ends|]. intros d _.
  apply ends_rbind; [unfold decode_name_cycle; destruct (zlen _) as [|[]|]; auto with ends|]. intros n _.
  destruct (filter _ _); [auto with ends|apply ends_key_object].
Qed.
Lemma get_tree_ends f name : ends (get_tree f name).
Proof.
  unfold get_tree. apply ends_rbind; [apply get_object_ends|]. intros o _. destruct o; auto with ends.
Qed.
End WithDecoders.
