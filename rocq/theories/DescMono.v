(** The description-driven reader: what it reads with few descriptions it reads with
    more, and every class it has read is described. *)
From Verif Require Import Base Bytes RBuf Obj Streamer RObj SpecDesc.

Fixpoint classes_of (v : dval) : list bytes :=
  match v with
  | DObject c l => c :: flat_map (fun p => classes_of (snd p)) l
  | DItems l => flat_map classes_of l
  | DPtr _ v => classes_of v
  | _ => []
  end.

Section Mono.
Variables lib lib' : bytes -> option desc.
Hypothesis L : forall c d, lib c = Some d -> lib' c = Some d.
Set Default Proof Using "Type".

Definition good (v : dval) : Prop := forall c, In c (classes_of v) -> c = bs "TObject" \/ lib c <> None.
Definition gok (c : cursor) : Prop := Forall (fun p => good (snd p)) (c_objects c).
Definition sub {A} (Q : A -> Prop) (m m' : G A) : Prop :=
  forall c v c', gok c -> m c = Ok (v, c') -> m' c = Ok (v, c') /\ Q v /\ gok c'.

Lemma sub_bind {A B} (Q : A -> Prop) (R : B -> Prop) (m m' : G A) (k k' : A -> G B) :
  sub Q m m' -> (forall v, Q v -> sub R (k v) (k' v)) -> sub R (bind m k) (bind m' k').
Proof.
  intros H K c v c' O E. apply bind_inv in E as (a & s & E1 & E2).
  destruct (H _ _ _ O E1) as (H1 & H2 & H3). rewrite (bind_Ok _ _ _ _ _ H1). exact (K a H2 _ _ _ H3 E2).
Qed.
Lemma sub_ret {A} (Q : A -> Prop) (a : A) : Q a -> sub Q (ret a) (ret a).
Proof. intros H c v c' O [= <- <-]. auto. Qed.
Lemma sub_no {A} (Q : A -> Prop) (m : G A) : sub Q no m.
Proof. intros c v c' _ H. discriminate. Qed.
Definition keeps {A} (m : G A) : Prop := forall c v c', m c = Ok (v, c') -> c_objects c' = c_objects c.
Lemma sub_keeps {A} (m : G A) : keeps m -> sub (fun _ => True) m m.
Proof. intros H c v c' O E. split; [exact E|]. split; [exact I|]. unfold gok. rewrite (H _ _ _ E). exact O. Qed.
Lemma keeps_bind {A B} (m : G A) (k : A -> G B) : keeps m -> (forall a, keeps (k a)) -> keeps (bind m k).
Proof. intros H K c v c' E. apply bind_inv in E as (a & s & E1 & E2). rewrite (K _ _ _ _ E2). exact (H _ _ _ E1). Qed.
Lemma keeps_ret {A} (a : A) : keeps (ret a : G A). Proof. now intros c v c' [= _ <-]. Qed.
Lemma keeps_no {A} : keeps (no : G A). Proof. intros c v c' H. discriminate. Qed.
Lemma keeps_if {A} (b : bool) (m m' : G A) : keeps m -> keeps m' -> keeps (if b then m else m'). Proof. now destruct b. Qed.
Lemma keeps_take n : keeps (take n).
Proof. intros c v c'. unfold take. destruct (_ && _); intros H; [|discriminate]. injection H as _ <-. reflexivity. Qed.
Lemma keeps_num sg n : keeps (num sg n).
Proof. apply keeps_bind; [apply keeps_take|]. intros a. apply keeps_ret. Qed.
Lemma keeps_word : keeps word. Proof. apply keeps_num. Qed.
Lemma keeps_whereat : keeps whereat. Proof. now intros c v c' [= _ <-]. Qed.
Lemma keeps_check b : keeps (check b). Proof. unfold check. apply keeps_if; [apply keeps_ret|apply keeps_no]. Qed.
Lemma keeps_text : keeps text.
Proof. apply keeps_bind; [apply keeps_num|]. intros n. apply keeps_bind; [apply keeps_if; [apply keeps_word|apply keeps_ret]|]. intros n'. apply keeps_take. Qed.
Lemma keeps_class_name : keeps class_name.
Proof. intros c v c'. unfold class_name. destruct (before_nul _); intros H; [|discriminate]. injection H as _ <-. reflexivity. Qed.
Lemma keeps_meet_class p c : keeps (meet_class p c). Proof. now intros x v x' [= _ <-]. Qed.
Lemma keeps_meet_object : keeps meet_object. Proof. now intros x v x' [= _ <-]. Qed.
Lemma keeps_seen_class p : keeps (seen_class p).
Proof. intros c v c'. unfold seen_class. destruct (alookup _ _ _); intros H; [|discriminate]. now injection H as _ <-. Qed.
Lemma keeps_repeatM {A} n (m : G A) : keeps m -> keeps (repeatM n m).
Proof.
  intros H. induction n; cbn [repeatM]; [apply keeps_ret|]. apply keeps_bind; [exact H|]. intros a.
  apply keeps_bind; [exact IHn|]. intros b. apply keeps_ret.
Qed.

Lemma sub_step {A B} (R : B -> Prop) (m : G A) (k k' : A -> G B) : keeps m -> (forall v, sub R (k v) (k' v)) -> sub R (bind m k) (bind m k').
Proof. intros H K. eapply sub_bind; [apply sub_keeps; exact H|]. intros v _. apply K. Qed.
Lemma sub_if {A} (Q : A -> Prop) (b : bool) (m1 m1' m2 m2' : G A) : sub Q m1 m1' -> sub Q m2 m2' ->
  sub Q (if b then m1 else m2) (if b then m1' else m2').
Proof. now destruct b. Qed.

Lemma sub_seen p : sub good (seen_object p) (seen_object p).
Proof.
  intros c v c' O. unfold seen_object. destruct (alookup _ p (c_objects c)) as [w|] eqn:E; [|discriminate]. intros [= <- <-].
  split; [reflexivity|]. split; [|exact O]. unfold gok in O. revert E O. generalize (c_objects c) as l. intros l. induction l as [|[q x] l IH]; [discriminate|].
  cbn [alookup]. intros E O. inversion O as [|? ? O1 O2]; subst. destruct (p =? q); [injection E as <-; exact O1|now apply IH].
Qed.
Lemma sub_keep p v : good v -> sub (fun _ => True) (keep_object p v) (keep_object p v).
Proof. intros H c u c' O [= <- <-]. split; [reflexivity|]. split; [exact I|]. constructor; [exact H|exact O]. Qed.

Lemma sub_pointer (obj obj' : bytes -> G dval) : (forall c, sub good (obj c) (obj' c)) -> sub good (pointer obj) (pointer obj').
Proof.
  intros H. unfold pointer. apply sub_step; [apply keeps_whereat|]. intros p. apply sub_step; [apply keeps_word|]. intros w.
  apply sub_if; [apply sub_ret; intros c []|]. apply sub_if; [apply sub_seen|].
  apply sub_step; [apply keeps_word|]. intros tag.
  eapply sub_bind with (Q := good).
  - apply sub_if; [apply sub_seen|]. apply sub_step.
    { apply keeps_if; [|apply keeps_seen_class]. apply keeps_bind; [apply keeps_class_name|]. intros c.
      apply keeps_bind; [apply keeps_meet_class|]. intros _. apply keeps_ret. }
    intros class. apply sub_step; [apply keeps_meet_object|]. intros i. eapply sub_bind; [apply H|]. intros v V.
    assert (good (DPtr i v)) by exact V. eapply sub_bind; [now apply sub_keep|]. intros _ _. now apply sub_ret.
  - intros v V. apply sub_step; [apply keeps_whereat|]. intros e. apply sub_step; [apply keeps_check|]. intros _. now apply sub_ret.
Qed.

Definition genv (env : list (bytes * dval)) : Prop := Forall (fun p => good (snd p)) env.
Lemma sub_member (obj obj' : bytes -> G dval) env y : (forall c, sub good (obj c) (obj' c)) -> sub good (member obj env y) (member obj' env y).
Proof.
  assert (N : forall z, good (DNum z)) by (intros z c []). assert (NS : forall z, good (DNums z)) by (intros z c []).
  assert (T : forall z, good (DText z)) by (intros z c []).
  intros H. destruct y as [sg n|sg n count| |class|]; cbn [member].
  - apply sub_step; [apply keeps_num|]. intros z. now apply sub_ret.
  - apply sub_step; [apply keeps_num|]. intros there. apply sub_if; [now apply sub_ret|].
    destruct (field env count) as [[k| | | | | |]|]; try apply sub_no.
    apply sub_step; [apply keeps_check|]. intros _. apply sub_step; [apply keeps_repeatM, keeps_num|]. intros l. now apply sub_ret.
  - apply sub_step; [apply keeps_text|]. intros s. now apply sub_ret.
  - apply H.
  - now apply sub_pointer.
Qed.
Lemma sub_members (obj obj' : bytes -> G dval) ms : (forall c, sub good (obj c) (obj' c)) -> forall env, genv env ->
  sub genv (members obj env ms) (members obj' env ms).
Proof.
  intros H. induction ms as [|m ms IH]; intros env E; cbn [members]; [now apply sub_ret|].
  eapply sub_bind; [now apply sub_member|]. intros v V. apply IH. apply Forall_app. split; [exact E|]. constructor; [exact V|constructor].
Qed.
Lemma sub_tobject : sub good tobject tobject.
Proof.
  unfold tobject. apply sub_step; [apply keeps_num|]. intros v. apply sub_step; [apply keeps_check|]. intros _.
  apply sub_step; [apply keeps_word|]. intros id. apply sub_step; [apply keeps_word|]. intros bits.
  apply sub_step; [apply keeps_if; [apply keeps_ret|apply keeps_bind; [apply keeps_num|intros a; apply keeps_ret]]|]. intros _.
  apply sub_ret. intros c [<-|[]]. now left.
Qed.
Lemma sub_tarray sg n : sub good (tarray sg n) (tarray sg n).
Proof.
  unfold tarray. apply sub_step; [apply keeps_num|]. intros k. apply sub_step; [apply keeps_repeatM, keeps_num|]. intros l.
  apply sub_ret. intros c [].
Qed.
Lemma sub_repeat (m m' : G dval) : sub good m m' -> forall n, sub (Forall good) (repeatM n m) (repeatM n m').
Proof.
  intros H. induction n; cbn [repeatM]; [apply sub_ret; constructor|]. eapply sub_bind; [exact H|]. intros v V.
  eapply sub_bind; [exact IHn|]. intros vs VS. apply sub_ret. now constructor.
Qed.
Lemma sub_tobjarray (obj obj' : bytes -> G dval) : (forall c, sub good (obj c) (obj' c)) -> sub genv (tobjarray obj) (tobjarray obj').
Proof.
  intros H. unfold tobjarray. eapply sub_bind; [apply sub_tobject|]. intros o O.
  apply sub_step; [apply keeps_text|]. intros s. apply sub_step; [apply keeps_num|]. intros n. apply sub_step; [apply keeps_num|]. intros low.
  eapply sub_bind; [apply sub_repeat, sub_pointer; exact H|]. intros l F. apply sub_ret.
  constructor; [exact O|]. constructor; [intros c []|]. constructor; [intros c []|]. constructor; [|constructor].
  intros c I. cbn [classes_of snd] in I. apply in_flat_map in I as (x & X1 & X2). rewrite Forall_forall in F. exact (F x X1 c X2).
Qed.
Lemma genv_settle class l : genv l -> genv (settle class l).
Proof.
  unfold settle. destruct (beqb class _); [|auto]. intros H. apply Forall_map. eapply Forall_impl; [|exact H]. cbv beta. intros [n v] G.
  cbn [fst snd] in *. destruct (beqb n _); [|exact G]. cbn [snd]. destruct v as [[| |]| | | | | |]; exact G.
Qed.

Lemma sub_object depth : forall class, sub good (object lib depth class) (object lib' depth class).
Proof using L.
  induction depth as [|n IH]; intros class; cbn [object]; [apply sub_no|].
  apply sub_if; [apply sub_tobject|]. apply sub_if; [apply sub_tarray|]. apply sub_if; [apply sub_tarray|].
  destruct (lib class) as [d|] eqn:E; [|apply sub_no]. rewrite (L _ _ E).
  apply sub_step; [apply keeps_whereat|]. intros p. apply sub_step; [apply keeps_word|]. intros w.
  apply sub_step; [apply keeps_num|]. intros v. apply sub_step; [apply keeps_check|]. intros _.
  eapply sub_bind with (Q := genv).
  - apply sub_if; [now apply sub_tobjarray|]. apply sub_members; [exact IH|constructor].
  - intros l G. apply sub_step; [apply keeps_whereat|]. intros e. apply sub_step; [apply keeps_check|]. intros _.
    apply sub_ret. apply (genv_settle class) in G. intros c [<-|I]; [right; congruence|].
    apply in_flat_map in I as (x & X1 & X2). unfold genv in G. rewrite Forall_forall in G. exact (G x X1 c X2).
Qed.

Lemma decode_more keylen class payload v : decode lib keylen class payload = Some v ->
  decode lib' keylen class payload = Some v /\ good v.
Proof using L.
  unfold decode. intros H. destruct (object lib _ class _) as [[u c]| | | |] eqn:E; try discriminate.
  match type of E with object _ _ _ ?c0 = _ => assert (O : gok c0) by constructor end.
  destruct (sub_object _ class _ _ _ O E) as (E' & G & _). rewrite E'.
  destruct (c_todo c); [|discriminate]. injection H as ->. split; [reflexivity|exact G].
Qed.
End Mono.
