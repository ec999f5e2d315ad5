(** Column types and values, with their [Marshaler]/[Unmarshaler] instances
    (rbytes/mod.rs). *)
From Verif Require Export Codec.

(** The scalar types with instances (rbytes/mod.rs 252-263). *)
Inductive prim := I8 | U8 | I16 | U16 | I32 | U32 | I64 | U64 | F32 | F64 | PBool.

(** Types with both instances: scalars, [String], [Vec<T>], [[T; N]]. *)
Inductive ty := TPrim (p : prim) | TString | TVec (t : ty) | TArr (n : nat) (t : ty).

(** Values; a float is its bit pattern, a bool is 0 or 1. *)
Inductive val := VInt (z : Z) | VStr (s : bytes) | VList (l : list val).

Definition prim_size (p : prim) : nat :=
  match p with
  | I8 | U8 | PBool => 1 | I16 | U16 => 2 | I32 | U32 | F32 => 4 | I64 | U64 | F64 => 8
  end.

(** The values of a scalar type. *)
Definition prim_ok (p : prim) (z : Z) : Prop :=
  match p with
  | I8 => is_i8 z | U8 => is_u8 z | I16 => is_i16 z | U16 => is_u16 z
  | I32 => is_i32 z | U32 => is_u32 z | I64 => is_i64 z | U64 => is_u64 z
  | F32 => is_u32 z | F64 => is_u64 z
  | PBool => z = 0 \/ z = 1
  end.

(** Well-typed values.  A Rust [String] is UTF-8 by construction; sizes below
    [2^31] are the limit of the length fields. *)
Fixpoint wt (t : ty) (v : val) : Prop :=
  match t, v with
  | TPrim p, VInt z => prim_ok p z
  | TString, VStr s => str_ok s
  | TVec t', VList l => zlen l < 2147483648 /\ Forall (wt t') l
  | TArr n t', VList l => length l = n /\ Forall (wt t') l
  | _, _ => False
  end.

(** rbytes/mod.rs 150-155 [marshal] of scalars *)
Definition write_prim (p : prim) (z : Z) : W unit :=
  match p with
  | I8 => write_i8 z | U8 => write_u8 z | I16 => write_i16 z | U16 => write_u16 z
  | I32 => write_i32 z | U32 => write_u32 z | I64 => write_i64 z | U64 => write_u64 z
  | F32 => write_f32 z | F64 => write_f64 z
  | PBool => write_bool (negb (z =? 0))
  end.

(** rbytes/mod.rs 119-123 [unmarshal] of scalars *)
Definition read_prim (p : prim) : R Z :=
  match p with
  | I8 => read_i8 | U8 => read_u8 | I16 => read_i16 | U16 => read_u16
  | I32 => read_i32 | U32 => read_u32 | I64 => read_i64 | U64 => read_u64
  | F32 => read_f32 | F64 => read_f64
  | PBool => b <- read_bool ;; ret (if b then 1 else 0)
  end.

(** rbytes/mod.rs 280-285 (String), 331-338 (Vec), 456-463 (array).
    Ill-typed pairs cannot occur in Rust. *)
Fixpoint marshal (t : ty) (v : val) {struct t} : W unit :=
  match t, v with
  | TPrim p, VInt z => write_prim p z
  | TString, VStr s => write_string s
  | TVec t', VList l => write_i32 (to_i32 (zlen l)) ;;; iterM (marshal t') l
  | TArr n t', VList l => iterM (marshal t') (firstn n l)
  | _, _ => unmodelled
  end.

(** rbytes/mod.rs 265-270 (String), 300-313 (Vec), 432-441 (array).
    [reserve(size as usize)] panics for a negative size; allocation failure for
    large sizes is not modelled. *)
Fixpoint unmarshal (t : ty) : R val :=
  match t with
  | TPrim p => z <- read_prim p ;; ret (VInt z)
  | TString => do_skip_header ;;; s <- read_string ;; ret (VStr s)
  | TVec t' =>
    do_skip_header ;;;
    n <- read_i32 ;;
    if n <? 0 then panic else
    set_skip_header None ;;;
    l <- repeatM (Z.to_nat n) (unmarshal t') ;; ret (VList l)
  | TArr n t' => l <- repeatM n (unmarshal t') ;; ret (VList l)
  end.

(** Explicit encoding. *)
Fixpoint enc (t : ty) (v : val) {struct t} : bytes :=
  match t, v with
  | TPrim p, VInt z => be (prim_size p) z
  | TString, VStr s => str_bytes s
  | TVec t', VList l => be 4 (zlen l) ++ flat_map (enc t') l
  | TArr n t', VList l => flat_map (enc t') l
  | _, _ => []
  end.

Lemma writes_prim p z : prim_ok p z -> writes (write_prim p z) (be (prim_size p) z).
Proof.
  destruct p; cbn [write_prim prim_size prim_ok]; intros H; try apply writes_int.
  destruct H as [-> | ->]; apply (writes_int 1).
Qed.

Lemma reads_prim p z sk : prim_ok p z -> reads_sk sk (read_prim p) (be (prim_size p) z) z.
Proof.
  destruct p; cbn [read_prim prim_size prim_ok]; intros H;
    try (apply reads_uint; exact H); try (apply reads_sint; [lia|exact H]).
  rewrite <- (app_nil_r (be 1 z)). unfold read_bool.
  eapply reads_bind with (a := be 1 z) (b := []) (v := negb (z =? 0)).
  - rewrite <- (app_nil_r (be 1 z)).
    eapply reads_bind with (a := be 1 z) (b := []); [apply reads_sint; [lia|]|apply reads_ret].
    red. change (256 ^ Z.of_nat 1 / 2) with 128. destruct H as [-> | ->]; lia.
  - destruct H as [-> | ->]; cbn; apply reads_ret.
Qed.

Lemma writes_marshal t : forall v, wt t v -> writes (marshal t v) (enc t v).
Proof.
  induction t as [p| |t IH|n t IH]; intros [z|s|l] H; cbn [wt] in H; try contradiction;
    cbn [marshal enc].
  - now apply writes_prim.
  - destruct H as [H _]. apply writes_string. pose proof (zlen_nonneg s). red; lia.
  - destruct H as [Hl Hf]. pose proof (zlen_nonneg l).
    rewrite to_i32_id by (red; lia). apply writes_bind; [apply writes_int|]. intros _.
    apply writes_iter. intros a Ha. apply IH. eapply Forall_forall; eauto.
  - destruct H as [<- Hf]. rewrite firstn_all.
    apply writes_iter. intros a Ha. apply IH. eapply Forall_forall; eauto.
Qed.

Lemma reads_repeat {A} (rf : R A) (g : A -> bytes) l sk :
  (forall a, In a l -> reads_sk sk rf (g a) a) ->
  reads_sk sk (repeatM (length l) rf) (flat_map g l) l.
Proof.
  induction l as [|a l IH]; cbn [length repeatM flat_map]; intros H; [apply reads_ret|].
  eapply reads_bind; [apply H; now left|].
  rewrite <- (app_nil_r (flat_map g l)).
  eapply reads_bind; [apply IH; intros; apply H; now right|apply reads_ret].
Qed.

Lemma reads_skip_none : reads_sk None do_skip_header [] tt.
Proof. intros pre post off rr. cbn [app]. rewrite (@zlen_nil Z), Z.add_0_r. reflexivity. Qed.

Lemma reads_set_none : reads_sk None (set_skip_header None) [] tt.
Proof. intros pre post off rr. cbn [app]. rewrite (@zlen_nil Z), Z.add_0_r. reflexivity. Qed.

Lemma reads_unmarshal t : forall v, wt t v -> reads_sk None (unmarshal t) (enc t v) v.
Proof.
  induction t as [p| |t IH|n t IH]; intros [z|s|l] H; cbn [wt] in H; try contradiction;
    cbn [unmarshal enc].
  - rewrite <- (app_nil_r (be _ _)). eapply reads_bind; [now apply reads_prim|apply reads_ret].
  - destruct H as [Hl Hu].
    change (str_bytes s) with ([] ++ str_bytes s).
    eapply reads_bind; [apply reads_skip_none|].
    rewrite <- (app_nil_r (str_bytes s)).
    eapply reads_bind; [apply reads_string; auto; lia|apply reads_ret].
  - destruct H as [Hl Hf]. pose proof (zlen_nonneg l).
    change (be 4 (zlen l) ++ ?x) with ([] ++ (be 4 (zlen l) ++ x)).
    eapply reads_bind; [apply reads_skip_none|].
    eapply reads_bind; [apply reads_sint; [lia|red; change (256 ^ Z.of_nat 4 / 2) with 2147483648; lia]|].
    destruct (Z.ltb_spec (zlen l) 0); [lia|].
    change (flat_map (enc t) l) with ([] ++ flat_map (enc t) l).
    eapply reads_bind; [apply reads_set_none|].
    rewrite <- (app_nil_r (flat_map (enc t) l)).
    eapply reads_bind; [|apply reads_ret].
    replace (Z.to_nat (zlen l)) with (length l) by (rewrite zlen_def; lia).
    apply reads_repeat. intros a Ha. apply IH. eapply Forall_forall; eauto.
  - destruct H as [<- Hf].
    rewrite <- (app_nil_r (flat_map (enc t) l)).
    eapply reads_bind; [|apply reads_ret].
    apply reads_repeat. intros a Ha. apply IH. eapply Forall_forall; eauto.
Qed.

(** Types whose entries have one size. *)
Fixpoint fixed_size (t : ty) : option Z :=
  match t with
  | TPrim p => Some (Z.of_nat (prim_size p))
  | TArr n t' => match fixed_size t' with Some k => Some (Z.of_nat n * k) | None => None end
  | _ => None
  end.

Lemma flat_map_len {A} (g : A -> bytes) k l :
  (forall a, In a l -> zlen (g a) = k) -> zlen (flat_map g l) = zlen l * k.
Proof.
  induction l as [|a l IH]; cbn [flat_map]; intros H; [reflexivity|].
  rewrite zlen_app, zlen_cons, IH by (intros; apply H; now right).
  rewrite H by now left. lia.
Qed.

Lemma enc_fixed t k : fixed_size t = Some k -> forall v, wt t v -> zlen (enc t v) = k.
Proof.
  revert k; induction t as [p| |t IH|n t IH]; cbn [fixed_size]; intros k Hk; try discriminate.
  - injection Hk as <-. intros [z|s|l] H; cbn [wt] in H; try contradiction. apply zlen_be.
  - destruct (fixed_size t) as [k'|]; [|discriminate]. injection Hk as <-.
    intros [z|s|l] H; cbn [wt] in H; try contradiction. destruct H as [Hn Hf]. cbn [enc].
    rewrite (flat_map_len _ k'). { rewrite zlen_def, Hn. reflexivity. }
    intros a Ha. apply IH; auto. eapply Forall_forall; eauto.
Qed.

Example values_ex :
  let t := TVec (TArr 2 (TVec TString)) in
  let v := VList [VList [VList [VStr (bs "a")]; VList []]] in
  wt t v /\ enc t v = [0;0;0;1; 0;0;0;1; 1;97; 0;0;0;0].
Proof.
  split; [|reflexivity].
  cbn [wt]. repeat first [split | constructor | rewrite zlen_def; reflexivity].
Qed.
