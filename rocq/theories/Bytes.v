(** Big-endian coding of machine integers ([to_be_bytes]/[from_be_bytes] of the
    Rust standard library) and integer casts. *)
From Verif Require Export Base.

Definition byte_ok (b : Z) : Prop := 0 <= b < 256.
Definition bytes_ok (l : bytes) : Prop := Forall byte_ok l.

(** [be n z]: the [n] big-endian bytes of [z] modulo [256^n]. *)
Fixpoint be (n : nat) (z : Z) : bytes :=
  match n with
  | O => []
  | S m => (z / 256 ^ Z.of_nat m) mod 256 :: be m z
  end.

(** [de l]: unsigned value of big-endian bytes. *)
Definition de (l : bytes) : Z := fold_left (fun a b => a * 256 + b) l 0.

(** Two's complement reinterpretation of an unsigned [8*n]-bit value. *)
Definition sgn (n : nat) (z : Z) : Z :=
  if z <? 256 ^ Z.of_nat n / 2 then z else z - 256 ^ Z.of_nat n.

(** Casts [as u8/u16/u32/i8/i16/i32/i64]. *)
Definition wrap_u (n : nat) (z : Z) : Z := z mod 256 ^ Z.of_nat n.
Definition wrap_s (n : nat) (z : Z) : Z := sgn n (wrap_u n z).

Definition in_u (n : nat) (z : Z) : Prop := 0 <= z < 256 ^ Z.of_nat n.
Definition in_s (n : nat) (z : Z) : Prop :=
  - (256 ^ Z.of_nat n / 2) <= z < 256 ^ Z.of_nat n / 2.

Lemma pow256_pos n : 0 < 256 ^ Z.of_nat n.
Proof. apply Z.pow_pos_nonneg; lia. Qed.

Lemma pow256_S n : 256 ^ Z.of_nat (S n) = 256 * 256 ^ Z.of_nat n.
Proof. rewrite Nat2Z.inj_succ, Z.pow_succ_r; lia. Qed.

Lemma pow256_half n : (0 < n)%nat -> 256 ^ Z.of_nat n = 2 * (256 ^ Z.of_nat n / 2).
Proof.
  destruct n; [lia|]. intros _. rewrite pow256_S.
  pose proof (pow256_pos n). lia.
Qed.

Lemma be_length n z : length (be n z) = n.
Proof. induction n; cbn; auto. Qed.
Lemma zlen_be n z : zlen (be n z) = Z.of_nat n.
Proof. rewrite zlen_def. now rewrite be_length. Qed.

Lemma be_bytes_ok n z : bytes_ok (be n z).
Proof. induction n; cbn; constructor; auto. unfold byte_ok. lia. Qed.

Lemma fold_de_acc l a :
  fold_left (fun a b => a * 256 + b) l a = a * 256 ^ zlen l + de l.
Proof.
  revert a; induction l as [|x l IH]; intros a; cbn [fold_left].
  - unfold de. cbn. rewrite (@zlen_nil Z). lia.
  - unfold de. cbn [fold_left]. rewrite (IH (a * 256 + x)), (IH (0 * 256 + x)).
    rewrite zlen_cons, Z.pow_add_r by (pose proof (zlen_nonneg l); lia). lia.
Qed.

Lemma de_cons x l : de (x :: l) = x * 256 ^ zlen l + de l.
Proof. unfold de at 1. cbn [fold_left]. rewrite fold_de_acc. lia. Qed.

Lemma de_nil : de [] = 0. Proof. reflexivity. Qed.

Lemma de_app l m : de (l ++ m) = de l * 256 ^ zlen m + de m.
Proof. unfold de at 1. rewrite fold_left_app, fold_de_acc. reflexivity. Qed.

Lemma de_bound l : bytes_ok l -> 0 <= de l < 256 ^ zlen l.
Proof.
  induction 1 as [|x l Hx Hl IH].
  - change (de []) with 0. rewrite (@zlen_nil Z). cbn. lia.
  - rewrite de_cons, zlen_cons, Z.pow_add_r by (pose proof (zlen_nonneg l); lia).
    unfold byte_ok in Hx. nia.
Qed.

Lemma de_be n z : de (be n z) = z mod 256 ^ Z.of_nat n.
Proof.
  induction n as [|n IH]; cbn [be].
  - rewrite de_nil. change (256 ^ Z.of_nat 0) with 1. now rewrite Z.mod_1_r.
  - rewrite de_cons, IH, zlen_be, pow256_S.
    pose proof (pow256_pos n) as Hp. set (P := 256 ^ Z.of_nat n) in *.
    rewrite (Z.mul_comm 256 P). rewrite Z.rem_mul_r by lia. lia.
Qed.

Lemma be_mod n z : be n (z mod 256 ^ Z.of_nat n) = be n z.
Proof.
  assert (G : forall m k, (m <= n)%nat ->
     (z mod 256 ^ Z.of_nat n / 256 ^ Z.of_nat k) mod 256 = (z / 256 ^ Z.of_nat k) mod 256 \/ (n <= k)%nat).
  { intros m k _. destruct (le_lt_dec n k) as [|L]; [now right|left].
    replace (Z.of_nat n) with (Z.of_nat k + 1 + Z.of_nat (n - k - 1)) by lia.
    rewrite !Z.pow_add_r by lia. change (256 ^ 1) with 256.
    pose proof (pow256_pos k). pose proof (pow256_pos (n - k - 1)).
    set (K := 256 ^ Z.of_nat k) in *. set (Q := 256 ^ Z.of_nat (n - k - 1)) in *.
    rewrite <- Z.mul_assoc, Z.rem_mul_r by nia.
    rewrite Z.add_comm, (Z.mul_comm K), Z.div_add_l by lia.
    rewrite (Z.div_small (z mod K)) by (apply Z.mod_pos_bound; lia).
    rewrite Z.add_0_r, Z.rem_mul_r by lia.
    set (t := (z / K / 256) mod Q).
    replace ((z / K) mod 256 + 256 * t) with ((z / K) mod 256 + t * 256) by lia.
    rewrite Z_mod_plus_full, Z.mod_mod; lia. }
  assert (Gk : forall k, (k <= n)%nat -> be k (z mod 256 ^ Z.of_nat n) = be k z).
  { induction k as [|k IH]; intros L; cbn [be]; auto.
    rewrite IH by lia. destruct (G n k (le_n n)) as [->|]; [auto|lia]. }
  now apply Gk.
Qed.

Lemma be_de l : bytes_ok l -> be (length l) (de l) = l.
Proof.
  induction 1 as [|x l Hx Hl IH]; cbn [be length]; auto.
  pose proof (de_bound l Hl) as Hb. pose proof (pow256_pos (length l)) as Hp.
  rewrite de_cons. rewrite zlen_def in *. set (P := 256 ^ Z.of_nat (length l)) in *.
  f_equal.
  - rewrite Z.div_add_l, Z.div_small by lia. rewrite Z.add_0_r.
    apply Z.mod_small. exact Hx.
  - rewrite <- IH at 3. rewrite <- be_mod. fold P.
    replace (x * P + de l) with (de l + x * P) by lia.
    rewrite Z_mod_plus_full. subst P. now rewrite be_mod.
Qed.

Lemma de_be_u n z : in_u n z -> de (be n z) = z.
Proof. intros H. rewrite de_be. apply Z.mod_small. exact H. Qed.

Lemma sgn_mod n z : (0 < n)%nat -> in_s n z -> sgn n (z mod 256 ^ Z.of_nat n) = z.
Proof.
  intros Hn [H1 H2]. unfold sgn.
  pose proof (pow256_half n Hn) as Hh. set (h := 256 ^ Z.of_nat n / 2) in *.
  set (P := 256 ^ Z.of_nat n) in *.
  destruct (Z_lt_le_dec z 0).
  - replace (z mod P) with (z + P).
    + destruct (Z.ltb_spec (z + P) h); lia.
    + apply (Z.mod_unique _ _ (-1)); lia.
  - rewrite Z.mod_small by lia. destruct (Z.ltb_spec z h); lia.
Qed.

Lemma sgn_de_be n z : (0 < n)%nat -> in_s n z -> sgn n (de (be n z)) = z.
Proof. intros. rewrite de_be. now apply sgn_mod. Qed.

Lemma wrap_s_id n z : (0 < n)%nat -> in_s n z -> wrap_s n z = z.
Proof. apply sgn_mod. Qed.
Lemma wrap_u_id n z : in_u n z -> wrap_u n z = z.
Proof. intros H; apply Z.mod_small; exact H. Qed.

Lemma be_wrap_s n z : (0 < n)%nat -> be n (wrap_s n z) = be n z.
Proof.
  intros Hn. unfold wrap_s, sgn, wrap_u.
  destruct (_ <? _); [apply be_mod|].
  rewrite <- (be_mod n (_ - _)).
  replace ((z mod 256 ^ Z.of_nat n - 256 ^ Z.of_nat n) mod 256 ^ Z.of_nat n)
     with (z mod 256 ^ Z.of_nat n); [apply be_mod|].
  pose proof (pow256_pos n).
  rewrite <- Z.add_opp_r. replace (- 256 ^ Z.of_nat n) with ((-1) * 256 ^ Z.of_nat n) by lia.
  rewrite Z_mod_plus_full, Z.mod_mod; lia.
Qed.

(** Concrete ranges. *)
Definition is_u8 z := 0 <= z < 256.
Definition is_u16 z := 0 <= z < 65536.
Definition is_u32 z := 0 <= z < 4294967296.
Definition is_u64 z := 0 <= z < 18446744073709551616.
Definition is_i8 z := -128 <= z < 128.
Definition is_i16 z := -32768 <= z < 32768.
Definition is_i32 z := -2147483648 <= z < 2147483648.
Definition is_i64 z := -9223372036854775808 <= z < 9223372036854775808.

Definition to_u8 := wrap_u 1.
Definition to_u16 := wrap_u 2.
Definition to_u32 := wrap_u 4.
Definition to_u64 := wrap_u 8.
Definition to_i8 := wrap_s 1.
Definition to_i16 := wrap_s 2.
Definition to_i32 := wrap_s 4.
Definition to_i64 := wrap_s 8.

Lemma to_i16_id z : is_i16 z -> to_i16 z = z.
Proof. intros; apply wrap_s_id; [lia|exact H]. Qed.
Lemma to_i32_id z : is_i32 z -> to_i32 z = z.
Proof. intros; apply wrap_s_id; [lia|exact H]. Qed.
Lemma to_i64_id z : is_i64 z -> to_i64 z = z.
Proof. intros; apply wrap_s_id; [lia|exact H]. Qed.
Lemma to_u32_id z : is_u32 z -> to_u32 z = z.
Proof. intros; apply wrap_u_id; exact H. Qed.

Example be_example : be 4 (-2) = [255; 255; 255; 254] /\ sgn 4 (de [255; 255; 255; 254]) = -2.
Proof. split; reflexivity. Qed.
