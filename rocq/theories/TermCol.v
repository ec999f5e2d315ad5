(** Reading a column always ends. *)
From Verif Require Export TermRead.

Section WithDecoders.
Context {LIB : decoders} {HLIB : decoders_end LIB}.

(** ** Small steps *)
Lemma ends_unwrap {A} (r : res A) : ends r -> ends (unwrap r).
Proof. unfold ends. destruct r; cbn; congruence. Qed.
Lemma ends_res_map {A B} (g : A -> res B) l : (forall a, In a l -> ends (g a)) -> ends (res_map g l).
Proof.
  induction l as [|a l IH]; intros H; cbn [res_map]; [auto with ends|].
  apply ends_rbind; [apply H; now left|]. intros b _. apply ends_rbind; [apply IH; intros; apply H; now right|].
  auto with ends.
Qed.
Lemma ends_chunks4 n : forall b, (length b < n)%nat -> ends (chunks4 n b).
Proof.
  induction n as [|n IH]; intros b H; [lia|]. cbn [chunks4].
  destruct b as [|x0 [|x1 [|x2 [|x3 r]]]]; auto with ends.
  apply ends_rbind; [apply IH; cbn [length] in H; lia|]. auto with ends.
Qed.
Lemma ends_sub_i32 a b : ends (sub_i32 a b).
Proof. unfold sub_i32, add_i32. destruct (_ && _); auto with ends. Qed.
Lemma ends_raw_data d b : ends (raw_data d b).
Proof.
  unfold raw_data. apply ends_rbind; [apply ends_unwrap, ends_key_bytes|]. intros buf _.
  apply ends_rbind; [apply ends_sub_i32|]. intros border _.
  destruct (_ =? _); [auto with ends|]. destruct (_ || _); [auto with ends|].
  apply ends_rbind.
  { apply ends_chunks4. unfold zsub. rewrite firstn_length, skipn_length. lia. }
  intros ch _. apply ends_rbind; [apply ends_res_map; intros; apply ends_sub_i32|]. intros os _.
  destruct (rev (tl os)); auto with ends.
Qed.
Lemma ends_slice b x y : ends (slice b x y).
Proof. unfold slice. destruct (_ && _); auto with ends. Qed.
Lemma ends_slices buf offs : ends (slices buf offs).
Proof.
  induction offs as [|a [|b r] IH]; cbn [slices]; auto with ends.
  apply ends_rbind; [apply ends_slice|]. intros x _. apply ends_rbind; [exact IH|]. auto with ends.
Qed.
Lemma ends_parse c : ends (parse_typename c).
Proof.
  unfold parse_typename. destruct (negb _); [auto with ends|]. destruct (first_token c) as [[w m]|]; [|auto with ends].
  repeat match goal with |- ends (if ?b then _ else _) => destruct b end; auto with ends.
Qed.
Lemma ends_header_bytes ty s c : ends (header_bytes_from_type ty s c).
Proof.
  unfold header_bytes_from_type. cbv zeta. pose proof (ends_parse c).
  destruct s as [[]|]; repeat match goal with |- ends (if ?b then _ else _) => destruct b end; auto with ends.
Qed.
Lemma parse_nonneg c z : parse_typename c = Ok z -> 0 <= z.
Proof.
  unfold parse_typename. destruct (negb _); [discriminate|]. destruct (first_token c) as [[w m]|]; [|discriminate].
  repeat match goal with |- context [if ?b then _ else _] => destruct b end; intros H; injection H as <-; lia.
Qed.
Lemma header_bytes_nonneg ty s c z : header_bytes_from_type ty s c = Ok z -> 0 <= z.
Proof.
  unfold header_bytes_from_type. cbv zeta.
  destruct s as [[]|]; repeat match goal with |- context [if ?b then _ else _] => destruct b end;
    try discriminate; try apply parse_nonneg; intros H; injection H as <-; lia.
Qed.

(** ** The chunks of a branch *)
Definition skip_fine (c : chunk) : Prop := match c with Irregular _ _ h => 0 <= h | _ => True end.

Lemma ends_basket_chunk d sis b seek len size l : ends (basket_chunk d sis b seek len size l).
Proof.
  unfold basket_chunk. apply ends_rbind; [apply ends_unwrap, ends_read_at|]. intros buf _.
  apply ends_rbind; [apply ends_unwrap, ends_same_run; intros; apply same_basket|]. intros bk _. cbv zeta.
  apply ends_rbind; [apply ends_raw_data|]. intros rd _. destruct rd as [n data|n data offs]; [auto with ends|].
  destruct (leaf_is_c l); [auto with ends|]. destruct (leaf_is_elem l).
  - destruct (br_elem b); [|auto with ends]. apply ends_rbind; [apply ends_header_bytes|]. intros hb _.
    apply ends_rbind; [apply ends_slices|]. auto with ends.
  - apply ends_rbind; [unfold div_usize; destruct (_ =? _); auto with ends|]. intros m _.
    destruct (br_elem b); [auto with ends|]. destruct (_ =? _); [auto with ends|].
    apply ends_rbind; [apply ends_slices|]. auto with ends.
Qed.
Lemma skip_fine_basket d sis b seek len size l c : basket_chunk d sis b seek len size l = Ok c -> skip_fine c.
Proof.
  unfold basket_chunk. intros H. apply rbind_inv in H as (buf & _ & H). apply rbind_inv in H as (bk & _ & H). cbv zeta in H.
  apply rbind_inv in H as (rd & _ & H). destruct rd as [n data|n data offs].
  { injection H as <-. exact I. }
  destruct (leaf_is_c l); [injection H as <-; exact I|]. destruct (leaf_is_elem l).
  - destruct (br_elem b); [|discriminate]. apply rbind_inv in H as (hb & Hb & H). apply rbind_inv in H as (ps & _ & H).
    injection H as <-. cbn. eapply header_bytes_nonneg; exact Hb.
  - apply rbind_inv in H as (m & _ & H). destruct (br_elem b); [injection H as <-; exact I|].
    destruct (_ =? _); [injection H as <-; exact I|]. apply rbind_inv in H as (ps & _ & H). injection H as <-. cbn. lia.
Qed.
Lemma ends_embedded sis b : ends (embedded_chunk sis b).
Proof.
  unfold embedded_chunk. destruct (br_baskets b) as [|k [|]]; auto with ends. destruct (br_elem b); [|auto with ends].
  apply ends_rbind; [apply ends_header_bytes|]. intros hb _. apply ends_rbind; [apply ends_slices|]. auto with ends.
Qed.
Lemma skip_fine_embedded sis b l : embedded_chunk sis b = Ok l -> Forall skip_fine l.
Proof.
  unfold embedded_chunk. destruct (br_baskets b) as [|k [|]]; [intros H; injection H as <-; constructor| |discriminate].
  destruct (br_elem b); intros H.
  - apply rbind_inv in H as (hb & Hb & H). apply rbind_inv in H as (ps & _ & H). injection H as <-.
    constructor; [|constructor]. cbn. eapply header_bytes_nonneg; exact Hb.
  - injection H as <-. constructor; [exact I|constructor].
Qed.
Lemma res_map_Forall {A B} (P : B -> Prop) (g : A -> res B) l : (forall a b, g a = Ok b -> P b) ->
  forall l', res_map g l = Ok l' -> Forall P l'.
Proof.
  intros HP. induction l as [|a l IH]; intros l' H; cbn [res_map] in H; [injection H as <-; constructor|].
  apply rbind_inv in H as (b & Hb & H). apply rbind_inv in H as (r & Hr & H). injection H as <-.
  constructor; eauto.
Qed.
Lemma ends_sizes b : ends (sizes_for b).
Proof. unfold sizes_for. cbv zeta. destruct (_ =? _)%nat; [auto with ends|]. destruct (map _ _); [destruct (_ <=? _)%nat|]; auto with ends. Qed.
Lemma ends_leaves b : ends (leaves_for b).
Proof.
  unfold leaves_for. cbv zeta. destruct (br_leaves b) as [|l [|l' r]]; auto with ends;
  destruct (_ =? _)%nat; auto with ends.
Qed.
Lemma ends_baskets_buffer d sis b : ends (baskets_buffer d sis b).
Proof.
  unfold baskets_buffer. apply ends_rbind; [apply ends_sizes|]. intros sz _. apply ends_rbind; [apply ends_leaves|]. intros ls _.
  apply ends_rbind; [apply ends_embedded|]. intros em _. apply ends_rbind; [|auto with ends].
  apply ends_res_map. intros [[[a q] c] e] _. apply ends_basket_chunk.
Qed.
Lemma skip_fine_buffer d sis b l : baskets_buffer d sis b = Ok l -> Forall skip_fine l.
Proof.
  unfold baskets_buffer. intros H. apply rbind_inv in H as (sz & _ & H). apply rbind_inv in H as (ls & _ & H).
  apply rbind_inv in H as (em & He & H). apply rbind_inv in H as (rest & Hr & H). injection H as <-.
  apply Forall_app. split; [eapply skip_fine_embedded; exact He|].
  eapply res_map_Forall; [|exact Hr]. intros [[[a q] c] e] x. apply skip_fine_basket.
Qed.

(** ** Readers of values move forward, by [k] bytes at least *)
Definition skip_ok (r : rbuf) : Prop := match rskip r with Some s => 0 <= s | None => True end.
Definition fw {A} (k : Z) (m : R A) : Prop := forall r, skip_ok r ->
  match m r with
  | Ok (_, r') => rp r' = rp r /\ roff r' = roff r /\ skip_ok r' /\ rc r + k <= rc r'
  | OutOfFuel => False
  | _ => True
  end.
Lemma fw_bind {A B} k1 k2 (m : R A) (f : A -> R B) : fw k1 m -> (forall a, fw k2 (f a)) -> fw (k1 + k2) (bind m f).
Proof.
  intros H K r S. specialize (H r S). unfold bind. destruct (m r) as [[a r']| | | |]; auto.
  destruct H as (H1 & H2 & H3 & H4). specialize (K a r' H3). destruct (f a r') as [[b r'']| | | |]; auto.
  destruct K as (K1 & K2 & K3 & K4). repeat split; try congruence; auto. lia.
Qed.
Lemma fw_bind' {A B} k1 k (m : R A) (f : A -> R B) : fw k1 m -> (forall a, fw (k - k1) (f a)) -> fw k (bind m f).
Proof. intros H K. replace k with (k1 + (k - k1)) by lia. now apply fw_bind. Qed.
Lemma fw_le {A} k k' (m : R A) : k' <= k -> fw k m -> fw k' m.
Proof. intros L H r S. specialize (H r S). destruct (m r) as [[a r']| | | |]; auto. destruct H as (? & ? & ? & ?). repeat split; auto. lia. Qed.
Lemma fw_ret {A} (a : A) : fw 0 (ret a).
Proof. intros r S. cbn. repeat split; auto. lia. Qed.
Lemma fw_panic {A} k : fw k (@panic rbuf A). Proof. intros r S. exact I. Qed.
Lemma fw_unmodelled {A} k : fw k (@unmodelled rbuf A). Proof. intros r S. exact I. Qed.
Lemma fw_extract n : fw n (extract n).
Proof.
  intros r S. unfold extract. destruct (_ && _) eqn:E; [|exact I]. unfold skip_ok in *. cbn. repeat split; auto. lia.
Qed.
Lemma fw_uint n : fw (Z.of_nat n) (read_uint n).
Proof. unfold read_uint. apply (fw_bind' (Z.of_nat n)); [apply fw_extract|]. intros. rewrite Z.sub_diag. apply fw_ret. Qed.
Lemma fw_sint n : fw (Z.of_nat n) (read_sint n).
Proof. unfold read_sint. apply (fw_bind' (Z.of_nat n)); [apply fw_extract|]. intros. rewrite Z.sub_diag. apply fw_ret. Qed.
Lemma fw_skip s : 0 <= s -> fw 0 (skip s).
Proof.
  intros L r S. unfold skip, set_pos. unfold r_pos. destruct (_ <=? _) eqn:E; [|exact I].
  unfold skip_ok in *. cbn. repeat split; auto. lia.
Qed.
Lemma fw_do_skip : fw 0 do_skip_header.
Proof.
  intros r S. unfold do_skip_header. pose proof S as S'. unfold skip_ok in S'. destruct (rskip r) as [s|] eqn:Es.
  2: { repeat split; auto. lia. }
  destruct (r_len r <? s) eqn:E1; [repeat split; auto; lia|].
  destruct (_ && _).
  2: { apply (fw_skip s S' r S). }
  unfold bind at 1. pose proof (fw_uint 1 r S) as H. fold read_u8 in H.
  destruct (read_u8 r) as [[h r1]| | | |] eqn:Er; auto. destruct H as (H1 & H2 & H3 & H4).
  apply read_uint_inv in Er as (-> & Q1 & Q2). change (Z.of_nat 1) with 1 in *.
  unfold bind, rewind, set_pos, r_pos. cbn [rc roff rp r_set_c].
  replace (rc r + 1 + roff r - 1 - roff r) with (rc r) by lia.
  destruct (0 <=? rc r); [|exact I].
  set (r2 := r_set_c (r_set_c r (rc r + 1)) (rc r)).
  assert (S2 : skip_ok r2) by (unfold skip_ok, r2; cbn; unfold skip_ok in S; exact S).
  destruct (h =? 64).
  - pose proof (fw_skip s S' r2 S2) as K. destruct (skip s r2) as [[u r3]| | | |]; auto.
  - unfold ret. subst r2. cbn. repeat split; auto. lia.
Qed.
Lemma fw_set_none : fw 0 (set_skip_header None).
Proof. intros r S. unfold skip_ok. cbn. repeat split; auto. lia. Qed.
Lemma fw_string : fw 1 read_string.
Proof.
  unfold read_string. apply (fw_bind' 1); [apply (fw_uint 1)|]. intros u. change (1 - 1) with 0.
  apply (fw_bind' 0). { destruct (u =? 255); [apply (fw_le 4); [lia|apply (fw_uint 4)]|apply fw_ret]. }
  intros n. change (0 - 0) with 0. destruct (n =? 0); [apply fw_ret|].
  apply (fw_bind' 0); [|intros; apply fw_ret].
  intros r S. pose proof (fw_extract n r S) as H. destruct (extract n r) as [[b r']| | | |] eqn:E; auto.
  apply extract_inv in E as (_ & L & _). destruct H as (H1 & H2 & H3 & H4). repeat split; auto. lia.
Qed.
Lemma fw_repeat {A} (m : R A) n : fw 0 m -> fw 0 (repeatM n m).
Proof.
  intros H. induction n as [|n IH]; cbn [repeatM]; [apply fw_ret|].
  apply (fw_bind' 0); [exact H|]. intros a. apply (fw_bind' 0); [exact IH|]. intros; apply fw_ret.
Qed.

(** Does every value of the type take a byte? *)
Fixpoint takes (t : ty) : bool :=
  match t with
  | TArr n t' => negb (n =? 0)%nat && takes t'
  | _ => true
  end.
Lemma fw_prim p : fw 1 (read_prim p).
Proof.
  destruct p; cbn [read_prim];
    try (apply (fw_le (Z.of_nat 1)); [lia|apply (fw_uint 1) || apply (fw_sint 1)]);
    try (apply (fw_le (Z.of_nat 2)); [lia|apply (fw_uint 2) || apply (fw_sint 2)]);
    try (apply (fw_le (Z.of_nat 4)); [lia|apply (fw_uint 4) || apply (fw_sint 4)]);
    try (apply (fw_le (Z.of_nat 8)); [lia|apply (fw_uint 8) || apply (fw_sint 8)]).
  unfold read_bool. apply (fw_bind' 1); [|intros; apply fw_ret].
  apply (fw_bind' 1); [apply (fw_sint 1)|intros; apply fw_ret].
Qed.
Lemma fw_value t : fw (if takes t then 1 else 0) (unmarshal t).
Proof.
  induction t as [p| |t IH|n t IH]; cbn [unmarshal takes].
  - apply (fw_bind' 1); [apply fw_prim|]. intros. apply fw_ret.
  - apply (fw_bind' 0); [apply fw_do_skip|]. intros _. apply (fw_bind' 1); [apply fw_string|]. intros. apply fw_ret.
  - apply (fw_bind' 0); [apply fw_do_skip|]. intros _. apply (fw_bind' 1); [apply (fw_le 4); [lia|apply (fw_sint 4)]|]. intros n.
    change (1 - 0 - 1) with 0. destruct (n <? 0); [apply fw_panic|]. apply (fw_bind' 0); [apply fw_set_none|]. intros _.
    apply (fw_bind' 0); [apply fw_repeat, (fw_le (if takes t then 1 else 0)); [destruct (takes t); lia|exact IH]|]. intros. apply fw_ret.
  - assert (I0 : fw 0 (unmarshal t)) by (apply (fw_le (if takes t then 1 else 0)); [destruct (takes t); lia|exact IH]).
    apply (fw_bind' (if negb (n =? 0)%nat && takes t then 1 else 0)); [|intros; rewrite Z.sub_diag; apply fw_ret].
    destruct n as [|n]; cbn [repeatM Nat.eqb negb andb]; [apply fw_ret|].
    apply (fw_bind' (if takes t then 1 else 0)); [exact IH|]. intros a. rewrite Z.sub_diag.
    apply (fw_bind' 0); [now apply fw_repeat|]. intros. apply fw_ret.
Qed.
Lemma fw_value0 t : fw 0 (unmarshal t).
Proof. apply (fw_le (if takes t then 1 else 0)); [destruct (takes t); lia|apply fw_value]. Qed.

(** ** Slices *)
Lemma fw_slice_loop {A} (func : R A) : fw 1 func -> forall n len inner, (Z.to_nat len <= n)%nat -> fw 0 (slice_loop func n len inner).
Proof.
  intros F. induction n as [|n IH]; intros len inner L r S; cbn [slice_loop]; destruct (Z.leb_spec len 0);
    try (repeat split; auto; lia); try lia.
  pose proof (F r S) as K. destruct (func r) as [[a r']| | | |]; auto. destruct K as (K1 & K2 & K3 & K4). cbv zeta.
  unfold r_pos. rewrite K2. destruct (_ <? 0); [exact I|].
  match goal with |- context [slice_loop func n ?l ?i r'] => pose proof (IH l i ltac:(lia) r' K3) as Q; destruct (slice_loop func n l i r') as [[b r'']| | | |] end; auto.
  destruct Q as (Q1 & Q2 & Q3 & Q4). repeat split; try congruence; auto. lia.
Qed.
Lemma fw_slice t : takes t = true -> fw 0 (unmarshal_slice (unmarshal t)).
Proof.
  intros T. unfold unmarshal_slice. apply (fw_bind' 0); [apply fw_do_skip|]. intros _ r S.
  pose proof (fw_value t) as F. rewrite T in F. apply (fw_slice_loop _ F _ (r_len r) []); [lia|exact S].
Qed.

(** ** Plain branches *)
Lemma ends_fw {A} off (m : R A) buf k : fw k m -> ends (rrun off m buf).
Proof.
  intros H. specialize (H (r_new buf off) I). unfold rrun, ends. destruct (m (r_new buf off)) as [[a r]| | | |]; try discriminate. contradiction.
Qed.
Lemma ends_read_chunk {A} (func : R A) c : fw 0 func -> skip_fine c -> ends (read_chunk func c).
Proof.
  intros F S. destruct c as [n s buf|n data h]; cbn [read_chunk].
  - destruct (n <? 0); [auto with ends|]. apply ends_unwrap, (ends_fw _ _ _ 0). now apply fw_repeat.
  - apply ends_res_map. intros p _. apply ends_unwrap. unfold rrun, ends. unfold bind, set_skip_header, modify.
    assert (K : skip_ok (r_set_skip (r_new p 0) (Some h))) by exact S.
    specialize (F _ K). destruct (func _) as [[a r]| | | |]; try discriminate. contradiction.
Qed.
Lemma get_basket_ends_plain {A} d sis (func : R A) b : fw 0 func -> br_subs b = [] -> ends (get_basket d sis func b).
Proof.
  intros F S. unfold get_basket. rewrite S. apply ends_rbind; [apply ends_baskets_buffer|]. intros chs H.
  apply ends_rbind; [|auto with ends]. apply ends_res_map. intros c Hc. apply ends_read_chunk; [exact F|].
  apply skip_fine_buffer in H. rewrite Forall_forall in H. auto.
Qed.
End WithDecoders.
