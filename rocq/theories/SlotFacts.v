(** The table of positions of a basket: what the writer does, step by step, and the
    description of SpecRoom.v. *)
From Coq Require Import ZArith List Lia Bool.
From Verif Require Import Base SpecRoom.
Import ListNotations.
Open Scope Z_scope.

(** The places of the table, the size it is thought to have, and the entries so far;
    rtree/wbasket.rs 50-85 [update], rtree/branch/wbranch.rs 140-150. *)
Definition grow (S A k : Z) : Z * Z := if A <=? k + 1 then (S + Z.abs (S - 2 * A), 2 * A) else (S, A).
Fixpoint slots_ok (S A k : Z) (sizes : list Z) : Prop :=
  match sizes with
  | [] => True
  | n :: r => k < fst (grow S A k) /\ slots_ok (fst (grow S A k)) (Z.max (snd (grow S A k)) n) (k + 1) r
  end.
Fixpoint slots_after (S A k : Z) (sizes : list Z) : Z * Z :=
  match sizes with
  | [] => (S, A)
  | n :: r => slots_after (fst (grow S A k)) (Z.max (snd (grow S A k)) n) (k + 1) r
  end.

Lemma slots_app a : forall S A k b,
  slots_ok S A k (a ++ b) <-> slots_ok S A k a /\ slots_ok (fst (slots_after S A k a)) (snd (slots_after S A k a)) (k + zlen a) b.
Proof.
  induction a as [|n a IH]; intros S A k b; cbn [app slots_ok slots_after fst snd].
  - rewrite (@zlen_nil Z), Z.add_0_r. tauto.
  - rewrite IH, zlen_cons. replace (k + (1 + zlen a)) with (k + 1 + zlen a) by lia. replace (k + (zlen a + 1)) with (k + 1 + zlen a) by lia. tauto.
Qed.
Lemma after_app a : forall S A k b,
  slots_after S A k (a ++ b) = slots_after (fst (slots_after S A k a)) (snd (slots_after S A k a)) (k + zlen a) b.
Proof.
  induction a as [|n a IH]; intros S A k b; cbn [app slots_after fst snd].
  - rewrite (@zlen_nil Z), Z.add_0_r. reflexivity.
  - rewrite IH, zlen_cons. f_equal. lia.
Qed.
Lemma after_big a : forall S A k, 1000 <= S -> 1000 <= A -> 1000 <= fst (slots_after S A k a) /\ 1000 <= snd (slots_after S A k a).
Proof.
  induction a as [|n a IH]; intros S A k HS HA; cbn [slots_after fst snd]; [auto|].
  apply IH; unfold grow; destruct (A <=? k + 1); cbn [fst snd]; lia.
Qed.

(** Once an entry is too long the table does not grow any more. *)
Lemma few_fit sizes : forall S l k, k + zlen sizes <= S -> 0 <= S -> 0 <= l -> positions_fit S l k sizes.
Proof.
  induction sizes as [|n r IH]; intros S l k H HS HL; cbn [positions_fit]; [exact I|]. cbv zeta.
  rewrite zlen_cons in *. pose proof (zlen_nonneg r).
  destruct (S + l <=? k + 1); (split; [right; lia|apply IH; [lia|lia|destruct (n =? _); lia]]).
Qed.
Lemma stuck_fwd sizes : forall S A k, S < A -> k + zlen sizes <= S -> slots_ok S A k sizes.
Proof.
  induction sizes as [|n r IH]; intros S A k H HS; cbn [slots_ok]; [exact I|].
  rewrite zlen_cons in HS. pose proof (zlen_nonneg r). unfold grow. destruct (Z.leb_spec A (k + 1)); [lia|]. cbn [fst snd].
  split; [lia|]. apply IH; lia.
Qed.
Lemma stuck_bwd sizes : forall S A k, S + 1 < A -> k <= S -> slots_ok S A k sizes -> k + zlen sizes <= S.
Proof.
  induction sizes as [|n r IH]; intros S A k H HK HS; cbn [slots_ok] in HS; [rewrite (@zlen_nil Z); lia|].
  unfold grow in HS. destruct (Z.leb_spec A (k + 1)); [lia|].
  cbn [fst snd] in HS. destruct HS as (HS1 & HS2). apply IH in HS2; [|lia|lia]. rewrite zlen_cons. lia.
Qed.

Lemma slots_are_positions sizes : forall S l k, 0 < S -> l = 0 \/ l = 1 -> 0 <= k < S + l ->
  slots_ok S (S + l) k sizes <-> positions_fit S l k sizes.
Proof.
  induction sizes as [|n r IH]; intros S l k HS HL HK; cbn [slots_ok positions_fit]; [tauto|]. cbv zeta. unfold grow.
  rewrite zlen_cons. pose proof (zlen_nonneg r) as Hr.
  assert (X : forall S' l', 0 < S' -> l' = 0 \/ l' = 1 -> k + 1 < S' + l' ->
    (k < S' /\ slots_ok S' (Z.max (S' + l') n) (k + 1) r <->
     (n <= S' + 1 \/ k + (1 + zlen r) <= S') /\ positions_fit S' (if n =? S' + 1 then 1 else l') (k + 1) r)).
  { intros S' l' P' L' K'. destruct (Z.le_gt_cases n (S' + 1)) as [LE|GT].
    - destruct (Z.eqb_spec n (S' + 1)) as [->|NE].
      + replace (Z.max (S' + l') (S' + 1)) with (S' + 1) by lia. rewrite IH by lia. intuition lia.
      + replace (Z.max (S' + l') n) with (S' + l') by lia. rewrite IH by lia. intuition lia.
    - destruct (Z.eqb_spec n (S' + 1)); [lia|]. split.
      + intros (A1 & A2). apply stuck_bwd in A2; [|lia|lia]. split; [right; lia|]. apply few_fit; lia.
      + intros ([A1|A1] & _); [lia|]. split; [lia|]. apply stuck_fwd; lia. }
  destruct (Z.leb_spec (S + l) (k + 1)) as [G|G]; cbn [fst snd].
  - replace (S + Z.abs (S - 2 * (S + l))) with (2 * (S + l)) by lia.
    specialize (X (2 * (S + l)) 0). rewrite !Z.add_0_r in X. rewrite <- X by lia. reflexivity.
  - rewrite <- X by lia. reflexivity.
Qed.
Lemma slots_positions sizes : slots_ok 1000 1000 0 sizes <-> positions_fit 1000 0 0 sizes.
Proof. apply (slots_are_positions sizes 1000 0 0); lia. Qed.
