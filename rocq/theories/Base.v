(** Results, monads, list and Z helpers shared by the whole model. *)
From Coq Require Export ZArith List Lia Bool ZifyBool ZifyNat ZifyN.
From Coq Require String Ascii.
Export String.StringSyntax.
Export ListNotations.
#[global] Open Scope Z_scope.
#[global] Open Scope list_scope.

Ltac Zify.zify_post_hook ::= Z.div_mod_to_equations.

Notation byte := Z (only parsing).
Notation bytes := (list Z).

(** Error values.  One constructor per Rust error the model can produce
    (riofs/error.rs, rbytes/error.rs, error.rs). *)
Inductive err : Set :=
| EIo                (* std::io::Error: short read *)
| EVersionTooHigh | EVersionTooLow | EMisc | EWrongClass
| EClassNotRegistered
| ENameSlash | EKeyClassMismatch
| EReadOnly | EWriteOnly | ENotOpened
| EHeaderLength | EDirInfo | ENegSeekKeys | EStreamerPtr
| EKeyNotInFile | ENameCycle | EShortRead | EStreamerNotFound
| ETypeMismatch | EBranchNotFound.

(** Outcome of a call: a Rust [Ok], a Rust [Err], a Rust panic; and two
    model-only values: code outside the model, and exhausted fuel. *)
Inductive res (A : Type) : Type :=
| Ok (a : A)
| Err (e : err)
| Panic
| Unmodelled
| OutOfFuel.
Arguments Ok {A} a.
Arguments Err {A} e.
Arguments Panic {A}.
Arguments Unmodelled {A}.
Arguments OutOfFuel {A}.

(** State and result monad: on anything but [Ok] the state is dropped, which is
    what a local buffer in Rust does when the function returns early. *)
Definition M (S A : Type) : Type := S -> res (A * S).

Definition ret {S A} (a : A) : M S A := fun s => Ok (a, s).
Definition bind {S A B} (m : M S A) (k : A -> M S B) : M S B :=
  fun s => match m s with
           | Ok (a, s') => k a s'
           | Err e => Err e
           | Panic => Panic
           | Unmodelled => Unmodelled
           | OutOfFuel => OutOfFuel
           end.
Definition fail {S A} (e : err) : M S A := fun _ => Err e.
Definition panic {S A} : M S A := fun _ => Panic.
Definition unmodelled {S A} : M S A := fun _ => Unmodelled.
Definition outoffuel {S A} : M S A := fun _ => OutOfFuel.
Definition gets {S A} (f : S -> A) : M S A := fun s => Ok (f s, s).
Definition modify {S} (f : S -> S) : M S unit := fun s => Ok (tt, f s).

(** Plain result monad. *)
Definition rbind {A B} (m : res A) (k : A -> res B) : res B :=
  match m with
  | Ok a => k a
  | Err e => Err e
  | Panic => Panic
  | Unmodelled => Unmodelled
  | OutOfFuel => OutOfFuel
  end.

Declare Scope monad_scope.
Delimit Scope monad_scope with monad.
Notation "x <- m ;; k" := (bind m (fun x => k))
  (at level 61, m at next level, right associativity) : monad_scope.
Notation "' p <- m ;; k" := (bind m (fun p => k))
  (at level 61, p pattern, m at next level, right associativity) : monad_scope.
Notation "m ;;; k" := (bind m (fun _ => k))
  (at level 61, right associativity) : monad_scope.
Notation "x <-? m ;; k" := (rbind m (fun x => k))
  (at level 61, m at next level, right associativity) : monad_scope.
Notation "' p <-? m ;; k" := (rbind m (fun p => k))
  (at level 61, p pattern, m at next level, right associativity) : monad_scope.
#[global] Open Scope monad_scope.

Lemma bind_Ok {S A B} (m : M S A) (k : A -> M S B) s a s' :
  m s = Ok (a, s') -> bind m k s = k a s'.
Proof. intros H; unfold bind; rewrite H; reflexivity. Qed.

Lemma bind_inv {S A B} (m : M S A) (k : A -> M S B) s b s'' :
  bind m k s = Ok (b, s'') -> exists a s', m s = Ok (a, s') /\ k a s' = Ok (b, s'').
Proof.
  unfold bind; destruct (m s) as [[a s']| | | |]; intros H; try discriminate.
  eauto.
Qed.

Lemma bind_assoc {S A B C} (m : M S A) (k : A -> M S B) (l : B -> M S C) s :
  bind (bind m k) l s = bind m (fun a => bind (k a) l) s.
Proof. unfold bind; destruct (m s) as [[a s']| | | |]; reflexivity. Qed.

Lemma Ok_eq {A B} (a a' : A) (b b' : B) : a = a' -> b = b' -> Ok (a, b) = Ok (a', b').
Proof. now intros -> ->. Qed.

Lemma rbind_inv {A B} (m : res A) (k : A -> res B) b :
  rbind m k = Ok b -> exists a, m = Ok a /\ k a = Ok b.
Proof. destruct m; cbn; intros; try discriminate; eauto. Qed.

(** Length of a list as a [Z]. *)
Definition zlen {A} (l : list A) : Z := Z.of_nat (length l).

Lemma zlen_def {A} (l : list A) : zlen l = Z.of_nat (length l). Proof. reflexivity. Qed.
Lemma zlen_nil {A} : zlen (@nil A) = 0. Proof. reflexivity. Qed.
Lemma zlen_cons {A} (x : A) l : zlen (x :: l) = 1 + zlen l.
Proof. unfold zlen; cbn [length]; lia. Qed.
Lemma zlen_app {A} (l m : list A) : zlen (l ++ m) = zlen l + zlen m.
Proof. unfold zlen; rewrite app_length; lia. Qed.
Lemma zlen_nonneg {A} (l : list A) : 0 <= zlen l.
Proof. unfold zlen; lia. Qed.
Lemma zlen_map {A B} (f : A -> B) l : zlen (map f l) = zlen l.
Proof. unfold zlen; now rewrite map_length. Qed.
Lemma zlen_rev {A} (l : list A) : zlen (rev l) = zlen l.
Proof. unfold zlen; now rewrite rev_length. Qed.
Lemma zlen_repeat {A} (x : A) n : zlen (repeat x n) = Z.of_nat n.
Proof. unfold zlen; now rewrite repeat_length. Qed.
Lemma zlen_0_nil {A} (l : list A) : zlen l = 0 -> l = [].
Proof. destruct l; auto. rewrite zlen_cons. pose proof (zlen_nonneg l). lia. Qed.
#[global] Opaque zlen.

Ltac zlen_simpl :=
  repeat first
    [ rewrite zlen_app in * | rewrite zlen_cons in *
    | rewrite zlen_repeat in * | rewrite zlen_map in * | rewrite zlen_rev in *
    | match goal with
      | |- context [zlen (@nil ?A)] => rewrite (@zlen_nil A)
      | H : context [zlen (@nil ?A)] |- _ => rewrite (@zlen_nil A) in H
      end ].

(** [zsub l p n]: the slice [l[p .. p+n]] (callers check the bounds). *)
Definition zsub {A} (l : list A) (p n : Z) : list A :=
  firstn (Z.to_nat n) (skipn (Z.to_nat p) l).

Lemma zsub_mid {A} (a w b : list A) : zsub (a ++ w ++ b) (zlen a) (zlen w) = w.
Proof.
  unfold zsub. rewrite !zlen_def, !Nat2Z.id.
  rewrite skipn_app, skipn_all, Nat.sub_diag. cbn [app skipn].
  rewrite firstn_app, firstn_all, Nat.sub_diag. cbn [firstn].
  now rewrite app_nil_r.
Qed.

Lemma zsub_length {A} (l : list A) p n :
  0 <= p -> 0 <= n -> p + n <= zlen l -> zlen (zsub l p n) = n.
Proof.
  unfold zsub. rewrite !zlen_def. intros.
  rewrite firstn_length, skipn_length. lia.
Qed.

Lemma zsub_split {A} (l : list A) p n :
  0 <= p -> 0 <= n -> p + n <= zlen l ->
  exists a b, l = a ++ zsub l p n ++ b /\ zlen a = p.
Proof.
  intros. exists (firstn (Z.to_nat p) l), (skipn (Z.to_nat n) (skipn (Z.to_nat p) l)).
  split.
  - unfold zsub. rewrite firstn_skipn. now rewrite firstn_skipn.
  - rewrite !zlen_def in *. rewrite firstn_length. lia.
Qed.

(** Association lists standing for Rust [HashMap]s: insertion is [cons],
    look-up returns the most recent binding. *)
Fixpoint alookup {K V} (eqb : K -> K -> bool) (k : K) (l : list (K * V)) : option V :=
  match l with
  | [] => None
  | (k', v) :: r => if eqb k k' then Some v else alookup eqb k r
  end.

(** Equality of byte strings. *)
Fixpoint beqb (a b : bytes) : bool :=
  match a, b with
  | [], [] => true
  | x :: a', y :: b' => (x =? y) && beqb a' b'
  | _, _ => false
  end.

Lemma beqb_eq a b : beqb a b = true <-> a = b.
Proof.
  revert b; induction a as [|x a IH]; intros [|y b]; cbn; split; intros H;
    try discriminate; auto.
  - apply andb_true_iff in H as [H1 H2]. apply Z.eqb_eq in H1. apply IH in H2. congruence.
  - inversion H; subst. rewrite Z.eqb_refl. cbn. now apply IH.
Qed.
Lemma beqb_refl a : beqb a a = true. Proof. now apply beqb_eq. Qed.
Lemma beqb_neq a b : beqb a b = false <-> a <> b.
Proof.
  split.
  - intros H E. apply beqb_eq in E. congruence.
  - intros H. destruct (beqb a b) eqn:E; auto. apply beqb_eq in E. contradiction.
Qed.
Lemma beqb_spec a b : reflect (a = b) (beqb a b).
Proof. apply iff_reflect. symmetry. apply beqb_eq. Qed.
Lemma beqb_sym a b : beqb a b = beqb b a.
Proof.
  destruct (beqb_spec a b) as [->|n]; [now rewrite beqb_refl|].
  symmetry. apply beqb_neq. congruence.
Qed.

(** ASCII literals as byte strings. *)
Definition bs (s : String.string) : bytes :=
  map (fun a => Z.of_N (Ascii.N_of_ascii a)) (String.list_ascii_of_string s).
Arguments bs s%string_scope.

(** Sequencing of a reader/writer action over a list / a count. *)
Fixpoint mapM {S A B} (f : A -> M S B) (l : list A) : M S (list B) :=
  match l with
  | [] => ret []
  | x :: r => y <- f x ;; ys <- mapM f r ;; ret (y :: ys)
  end.

Fixpoint repeatM {S A} (n : nat) (f : M S A) : M S (list A) :=
  match n with
  | O => ret []
  | S k => y <- f ;; ys <- repeatM k f ;; ret (y :: ys)
  end.

Fixpoint iterM {S A} (f : A -> M S unit) (l : list A) : M S unit :=
  match l with
  | [] => ret tt
  | x :: r => f x ;;; iterM f r
  end.

Lemma Forall_app_iff {A} (P : A -> Prop) l m : Forall P (l ++ m) <-> Forall P l /\ Forall P m.
Proof. apply Forall_app. Qed.
