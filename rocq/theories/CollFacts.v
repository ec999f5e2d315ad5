(** Facts about reading sets and maps. *)
From Verif Require Import Base Bytes RBuf WBuf Values Codec Obj RObj TreeObj Decomp File ColRead Names Spec SpecRead Coll SpecColl CodecFacts ZipFacts.

(** Reading [w] gives [v] and leaves a skip state that [P] describes. *)
Definition rd {V} (sk : option Z) (m : R V) (w : bytes) (v : V) (P : option Z -> Prop) : Prop :=
  forall pre post off rr, exists sk', P sk' /\
    m (mkR (pre ++ w ++ post) (zlen pre) off rr sk) = Ok (v, mkR (pre ++ w ++ post) (zlen pre + zlen w) off rr sk').
Lemma rd_ret {V} (v : V) sk (P : option Z -> Prop) : P sk -> rd sk (ret v) [] v P.
Proof. intros H pre post off rr. exists sk. split; [exact H|]. cbn [app]. rewrite (@zlen_nil Z), Z.add_0_r. reflexivity. Qed.
Lemma rd_bind {V U} (m : R V) (k : V -> R U) a b v u sk (P Q : option Z -> Prop) :
  rd sk m a v P -> (forall sk', P sk' -> rd sk' (k v) b u Q) -> rd sk (bind m k) (a ++ b) u Q.
Proof.
  intros Hm Hk pre post off rr. destruct (Hm pre (b ++ post) off rr) as (s1 & P1 & E1).
  destruct (Hk s1 P1 (pre ++ a) post off rr) as (s2 & P2 & E2). exists s2. split; [exact P2|].
  rewrite <- app_assoc, (bind_Ok _ _ _ _ _ E1). rewrite zlen_app, <- !app_assoc in E2. rewrite E2. now rewrite zlen_app, Z.add_assoc.
Qed.
Lemma rd_of {V} sk (m : R V) w v : reads_sk sk m w v -> rd sk m w v (eq sk).
Proof. intros H pre post off rr. exists sk. split; [reflexivity|apply H]. Qed.
Lemma rd_weaken {V} sk (m : R V) w v (P Q : option Z -> Prop) : rd sk m w v P -> (forall s, P s -> Q s) -> rd sk m w v Q.
Proof. intros H I pre post off rr. destruct (H pre post off rr) as (s & A & E). eauto. Qed.
Lemma rd_set sk s : rd sk (set_skip_header s) [] tt (eq s).
Proof. intros pre post off rr. exists s. split; [reflexivity|]. cbn [app]. rewrite (@zlen_nil Z), Z.add_0_r. reflexivity. Qed.

Lemma skip_zero : rd (Some 0) do_skip_header [] tt (eq (Some 0)).
Proof.
  intros pre post off rr. exists (Some 0). split; [reflexivity|]. cbn [app]. rewrite (@zlen_nil Z), Z.add_0_r.
  unfold do_skip_header. cbn [rskip]. unfold r_len. cbn [rp rc]. rewrite zlen_app. pose proof (zlen_nonneg post). pose proof (zlen_nonneg pre).
  destruct (Z.ltb_spec (zlen pre + zlen post - zlen pre) 0); [lia|]. change (1 <? 0) with false. rewrite Bool.andb_false_r.
  unfold skip, set_pos, r_pos, r_set_c. cbn [rc roff rp rrefs rskip].
  replace (zlen pre + off + 0 - off) with (zlen pre) by lia. destruct (Z.leb_spec 0 (zlen pre)); [|lia]. reflexivity.
Qed.
(** A header is skipped. *)
Lemma skip_header h hd : entry_header h hd -> rd (Some h) do_skip_header hd tt (eq (Some h)).
Proof.
  intros [LH H] pre post off rr. exists (Some h). split; [reflexivity|]. unfold do_skip_header. cbn [rskip]. unfold r_len. cbn [rp rc].
  rewrite !zlen_app, LH. pose proof (zlen_nonneg post). pose proof (zlen_nonneg pre). pose proof (zlen_nonneg hd).
  destruct (Z.ltb_spec (zlen pre + (h + zlen post) - zlen pre) h); [lia|].
  assert (SKP : skip h (mkR (pre ++ hd ++ post) (zlen pre) off rr (Some h)) = Ok (tt, mkR (pre ++ hd ++ post) (zlen pre + h) off rr (Some h))).
  { unfold skip, set_pos, r_pos, r_set_c. cbn [rc roff rp rrefs rskip].
    replace (zlen pre + off + h - off) with (zlen pre + h) by lia. destruct (Z.leb_spec 0 (zlen pre + h)); [reflexivity|lia]. }
  destruct ((1 <? _) && (1 <? h)) eqn:E; [|exact SKP].
  destruct H as [H|(r & ->)]; [lia|].
  pose proof (reads_uint 1 64 (Some h) ltac:(red; change (256 ^ Z.of_nat 1) with 256; lia) pre (r ++ post) off rr) as RU.
  change (be 1 64) with [64] in RU. change (zlen [64]) with 1 in RU.
  change (pre ++ (64 :: r) ++ post) with (pre ++ [64] ++ r ++ post). unfold read_u8. rewrite (bind_Ok _ _ _ _ _ RU).
  change (pre ++ (64 :: r) ++ post) with (pre ++ [64] ++ r ++ post) in SKP. rewrite <- SKP.
  unfold rewind, set_pos, r_pos, r_set_c, bind. cbn [rc roff rp rrefs rskip].
  replace (zlen pre + 1 + off - 1 - off) with (zlen pre) by lia. destruct (Z.leb_spec 0 (zlen pre)); [|lia]. reflexivity.
Qed.
Definition usual (sk : option Z) : Prop := sk = None \/ sk = Some 0 \/ sk = Some 6.
(** In front of a count that is not very large nothing is taken for a header. *)
Lemma skip_count sk n pre post off rr : usual sk -> 0 <= n < 2 ^ 30 ->
  do_skip_header (mkR (pre ++ be 4 n ++ post) (zlen pre) off rr sk) = Ok (tt, mkR (pre ++ be 4 n ++ post) (zlen pre) off rr sk).
Proof.
  intros U H. assert (E : be 4 n = (n / 2 ^ 24) mod 256 :: be 3 n) by reflexivity.
  destruct U as [-> | [-> | ->]]; [reflexivity|destruct (skip_zero pre (be 4 n ++ post) off rr) as (? & <- & A); cbn [app] in A; rewrite A, (@zlen_nil Z), Z.add_0_r; reflexivity|].
  unfold do_skip_header. cbn [rskip]. unfold r_len. cbn [rp rc].
  destruct (zlen (pre ++ be 4 n ++ post) - zlen pre <? 6) eqn:A; [reflexivity|].
  destruct (Z.ltb_spec 1 (zlen (pre ++ be 4 n ++ post) - zlen pre)); [|lia]. change (1 <? 6) with true. cbn [andb].
  set (b := (n / 2 ^ 24) mod 256) in *. assert (B : 0 <= b < 64).
  { unfold b. change (2 ^ 30) with (64 * 2 ^ 24) in H. rewrite Z.mod_small; [split; [apply Z.div_pos; lia|apply Z.div_lt_upper_bound; lia]|].
    split; [apply Z.div_pos; lia|]. apply Z.lt_trans with 64; [apply Z.div_lt_upper_bound; lia|lia]. }
  rewrite E. change (pre ++ (b :: be 3 n) ++ post) with (pre ++ [b] ++ be 3 n ++ post). unfold read_u8.
  pose proof (reads_uint 1 b (Some 6) ltac:(red; change (256 ^ Z.of_nat 1) with 256; lia) pre (be 3 n ++ post) off rr) as RU.
  rewrite (be_1 b) in RU by (red; lia). change (zlen [b]) with 1 in RU. rewrite (bind_Ok _ _ _ _ _ RU).
  unfold rewind, set_pos, r_pos, r_set_c, bind. cbn [rc roff rp rrefs rskip].
  replace (zlen pre + 1 + off - 1 - off) with (zlen pre) by lia. destruct (Z.leb_spec 0 (zlen pre)) as [_|L]; [|pose proof (zlen_nonneg pre); lia].
  destruct (Z.eqb_spec b 64); [lia|]. reflexivity.
Qed.
Lemma rd_count {V} sk n (k : R V) w v P : usual sk -> 0 <= n < 2 ^ 30 -> rd sk k (be 4 n ++ w) v P -> rd sk (do_skip_header ;;; k) (be 4 n ++ w) v P.
Proof.
  intros U H K pre post off rr. destruct (K pre post off rr) as (s & A & E). exists s. split; [exact A|]. rewrite <- app_assoc in *.
  rewrite (bind_Ok _ _ _ _ _ (skip_count sk n pre (w ++ post) off rr U H)). exact E.
Qed.

(** ** Equality *)
Fixpoint plain (v : cval) : Prop :=
  match v with
  | CInt _ | CStr _ => True
  | CList l => (fix go (l : list cval) : Prop := match l with [] => True | x :: r => plain x /\ go r end) l
  | _ => False
  end.
Lemma plain_list l : plain (CList l) <-> Forall plain l.
Proof. induction l as [|x l IH]; [split; [constructor|constructor]|]. cbn [plain] in *. split; [intros [A B]; constructor; [exact A|now apply IH]|intros H; inversion H; subst; split; [assumption|now apply IH]]. Qed.
Fixpoint cval_size (v : cval) : nat :=
  match v with
  | CList l => S ((fix go (l : list cval) : nat := match l with [] => O | x :: r => (S (cval_size x + go r))%nat end) l)
  | _ => 1%nat
  end.
Lemma ceqb_eq_n n : forall a b, (cval_size a <= n)%nat -> plain a -> (ceqb a b = true <-> a = b).
Proof.
  induction n as [|n IH]; intros a b L P; [destruct a; cbn in L; lia|].
  destruct a as [z|s|l|l|l]; destruct b as [z'|s'|m|m|m]; cbn [plain] in P; try contradiction; cbn [ceqb]; try (split; discriminate).
  - rewrite Z.eqb_eq. split; congruence.
  - rewrite beqb_eq. split; congruence.
  - cbn [cval_size] in L. apply (plain_list l) in P. apply le_S_n in L.
    transitivity (l = m); [|split; congruence].
    revert m; induction l as [|x l IHl]; intros [|y m]; try (split; (reflexivity || discriminate)).
    inversion P as [|? ? Px Pl]; subst. rewrite Bool.andb_true_iff, (IH x y), IHl; [|lia|assumption|lia|assumption].
    split; [intros [-> ->]; reflexivity|intros E; injection E as -> ->; auto].
Qed.
Lemma ceqb_eq a b : plain a -> (ceqb a b = true <-> a = b).
Proof. apply (ceqb_eq_n (cval_size a)). lia. Qed.
Lemma ceqb_sym_plain a b : plain a -> plain b -> ceqb a b = ceqb b a.
Proof.
  intros A B. destruct (ceqb a b) eqn:E; symmetry.
  - apply ceqb_eq in E; [subst; now apply ceqb_eq|exact A].
  - apply Bool.not_true_iff_false. intros F. apply ceqb_eq in F; [subst|exact B]. rewrite (proj2 (ceqb_eq a a A) eq_refl) in E. discriminate.
Qed.
Lemma laid_plain t : hashable t = true -> forall v w, laid t v w -> plain v.
Proof.
  induction t as [p| |t IH|n t IH|t IH|tk IHk tv IHv]; intros H v w L; try discriminate H; destruct v as [z|s|l|l|l]; cbn [laid] in L; try contradiction; try exact I.
  - destruct L as (ws & F & _). apply plain_list. clear - IH H F. induction F as [|x y l ws A _ IHF]; constructor; [eapply IH; eauto|exact IHF].
  - destruct L as (ws & F & _). apply plain_list. clear - IH H F. induction F as [|x y l ws A _ IHF]; constructor; [eapply IH; eauto|exact IHF].
Qed.

(** ** Sets and maps *)
Lemma set_insert_new l x : plain x -> ~ In x l -> set_insert l x = l ++ [x].
Proof.
  intros P N. unfold set_insert. replace (existsb (ceqb x) l) with false; [reflexivity|]. symmetry. apply Bool.not_true_iff_false.
  intros E. apply existsb_exists in E as (y & I & E). apply ceqb_eq in E; [subst; auto|exact P].
Qed.
Lemma set_insert_in l x y : plain x -> (In y (set_insert l x) <-> In y l \/ y = x).
Proof.
  intros P. unfold set_insert. destruct (existsb (ceqb x) l) eqn:E.
  - apply existsb_exists in E as (z & I & E). apply ceqb_eq in E; [subst|exact P]. split; [tauto|intros [A| ->]; assumption].
  - rewrite in_app_iff. cbn [In]. split; [intros [A|[A|[]]]; auto|intros [A|A]; auto].
Qed.
Lemma set_insert_nodup l x : plain x -> NoDup l -> NoDup (set_insert l x).
Proof.
  intros P N. unfold set_insert. destruct (existsb (ceqb x) l) eqn:E; [exact N|].
  assert (A : ~ In x l). { intros I. apply Bool.not_true_iff_false in E. apply E, existsb_exists. exists x. split; [exact I|now apply ceqb_eq]. }
  clear E P. induction N as [|y l H N IH]; [repeat constructor; auto|]. cbn [app]. constructor.
  - rewrite in_app_iff. cbn [In] in *. intuition.
  - apply IH. cbn [In] in A. tauto.
Qed.
Lemma set_of_gen l : Forall plain l -> forall acc, NoDup acc ->
  NoDup (fold_left set_insert l acc) /\ (forall y, In y (fold_left set_insert l acc) <-> In y acc \/ In y l).
Proof.
  induction 1 as [|x l P _ IH]; intros acc N; cbn [fold_left]; [split; [exact N|intros y; cbn; tauto]|].
  destruct (IH (set_insert acc x) (set_insert_nodup _ _ P N)) as [H1 H2]. split; [exact H1|]. intros y. rewrite H2, (set_insert_in _ _ _ P). cbn [In]. intuition.
Qed.
Lemma set_of_distinct l : Forall plain l -> NoDup l -> set_of l = l.
Proof.
  unfold set_of. intros P N. change l with ([] ++ l) at 2. change (NoDup ([] ++ l)) in N. revert N. generalize (@nil cval) as acc.
  induction P as [|x l P _ IH]; intros acc N; cbn [fold_left]; [now rewrite app_nil_r|].
  rewrite set_insert_new; [|exact P|apply NoDup_remove_2 in N; rewrite in_app_iff in N; tauto].
  rewrite IH; [now rewrite <- app_assoc|now rewrite <- app_assoc].
Qed.

(** Lookup. *)
Fixpoint map_get (l : list (cval * cval)) (k : cval) : option cval :=
  match l with [] => None | (k', v) :: r => if ceqb k' k then Some v else map_get r k end.
Lemma map_insert_keys l kv k : In k (map fst (map_insert l kv)) -> In k (map fst l) \/ k = fst kv.
Proof.
  induction l as [|(k', v) l IH]; cbn [map_insert map In fst]; [intros [<-|[]]; auto|].
  destruct (ceqb k' (fst kv)); cbn [map In fst]; [tauto|]. intros [A|A]; [auto|]. destruct (IH A); auto.
Qed.
Lemma map_insert_get l kv k : Forall (fun p => plain (fst p)) l -> plain (fst kv) -> plain k ->
  map_get (map_insert l kv) k = if ceqb (fst kv) k then Some (snd kv) else map_get l k.
Proof.
  intros P PK Pk. induction P as [|(k', v) l P' P IH]; cbn [map_insert map_get].
  - destruct kv as [a b]. reflexivity.
  - cbn [fst] in P'. destruct (ceqb k' (fst kv)) eqn:E; cbn [map_get].
    + apply ceqb_eq in E; [|exact P']. subst k'. now destruct (ceqb (fst kv) k).
    + rewrite IH. destruct (ceqb k' k) eqn:E2; [|reflexivity]. apply ceqb_eq in E2; [|exact P']. subst k'.
      replace (ceqb (fst kv) k) with false; [reflexivity|]. symmetry. now rewrite ceqb_sym_plain.
Qed.
Lemma map_insert_plain l kv : Forall (fun p => plain (fst p)) l -> plain (fst kv) -> Forall (fun p => plain (fst p)) (map_insert l kv).
Proof.
  intros P PK. induction P as [|(k', v) l P' P IH]; cbn [map_insert]; [repeat constructor; exact PK|].
  destruct (ceqb k' (fst kv)); constructor; auto.
Qed.
Lemma map_insert_nodup l kv : Forall (fun p => plain (fst p)) l -> plain (fst kv) -> NoDup (map fst l) -> NoDup (map fst (map_insert l kv)).
Proof.
  intros P PK. induction P as [|(k', v) l P' P IH]; cbn [map_insert map fst]; intros N; [repeat constructor; auto|].
  inversion N as [|? ? N1 N2]; subst. destruct (ceqb k' (fst kv)) eqn:E; cbn [map fst]; [exact N|]. constructor; [|now apply IH].
  intros I. apply map_insert_keys in I as [I|I]; [tauto|]. subst k'. cbn [fst] in P'. rewrite (proj2 (ceqb_eq _ _ PK) eq_refl) in E. discriminate.
Qed.
Lemma map_insert_new l kv : Forall (fun p => plain (fst p)) l -> ~ In (fst kv) (map fst l) -> map_insert l kv = l ++ [kv].
Proof.
  intros P N. induction P as [|(k', v) l P' P IH]; cbn [map_insert]; [reflexivity|]. cbn [map In fst] in N.
  destruct (ceqb k' (fst kv)) eqn:E; [apply ceqb_eq in E; [tauto|exact P']|]. cbn [app]. now rewrite IH by tauto.
Qed.
Lemma map_of_distinct l : Forall (fun p => plain (fst p)) l -> NoDup (map fst l) -> map_of l = l.
Proof.
  unfold map_of. intros P N. change l with ([] ++ l) at 2. change (NoDup (map fst ([] ++ l))) in N.
  assert (PA : Forall (fun p : cval * cval => plain (fst p)) []) by constructor. revert N PA. generalize (@nil (cval * cval)) as acc.
  induction P as [|x l P _ IH]; intros acc N PA; cbn [fold_left]; [now rewrite app_nil_r|].
  assert (NX : ~ In (fst x) (map fst acc)).
  { rewrite map_app in N. cbn [map] in N. apply NoDup_remove_2 in N. rewrite in_app_iff in N. tauto. }
  rewrite map_insert_new by assumption. rewrite IH; [now rewrite <- app_assoc|now rewrite <- app_assoc|].
  apply Forall_app. split; [exact PA|repeat constructor; exact P].
Qed.
(** The value that was inserted last counts. *)
Lemma map_of_get l k : Forall (fun p => plain (fst p)) l -> plain k -> forall acc, Forall (fun p => plain (fst p)) acc ->
  map_get (fold_left map_insert l acc) k = match map_get (rev l) k with Some v => Some v | None => map_get acc k end.
Proof.
  intros P Pk. assert (G : forall a b, map_get (a ++ b) k = match map_get a k with Some v => Some v | None => map_get b k end).
  { induction a as [|(x, y) a IH]; intros b; [reflexivity|]. cbn [app map_get]. destruct (ceqb x k); [reflexivity|apply IH]. }
  induction P as [|x l Px P IH]; intros acc PA; cbn [fold_left rev]; [reflexivity|].
  rewrite IH by now apply map_insert_plain. rewrite G, (map_insert_get _ _ _ PA Px Pk).
  destruct (map_get (rev l) k); [reflexivity|]. destruct x as [a b]. cbn [map_get fst snd]. destruct (ceqb a k); reflexivity.
Qed.
Lemma map_of_nodup l : Forall (fun p => plain (fst p)) l -> NoDup (map fst (map_of l)).
Proof.
  unfold map_of. intros P. assert (PA : Forall (fun p : cval * cval => plain (fst p)) [] /\ NoDup (map fst (@nil (cval * cval)))) by (repeat constructor).
  revert PA. generalize (@nil (cval * cval)) as acc. induction P as [|x l Px P IH]; intros acc [PA N]; cbn [fold_left]; [exact N|].
  apply IH. split; [now apply map_insert_plain|now apply map_insert_nodup].
Qed.

(** ** Reading *)
Definition enters (t : cty) (sk : option Z) : Prop :=
  match t with
  | CPrim _ | CArr _ _ => True
  | CString => sk = None \/ sk = Some 0
  | _ => usual sk
  end.
Lemma enters_zero t : enters t (Some 0).
Proof. destruct t; cbn [enters]; unfold usual; auto. Qed.
Lemma enters_none t : enters t None.
Proof. destruct t; cbn [enters]; unfold usual; auto. Qed.
Lemma enters_usual t : enters t (Some 6) -> forall sk, usual sk -> enters t sk.
Proof. destruct t; cbn [enters]; auto. intros [A|A]; discriminate. Qed.

Definition leaves (t : cty) (sk sk' : option Z) : Prop := enters t sk' /\ (usual sk -> usual sk').
Definition reading (t : cty) : Prop := forall v w, laid t v w ->
  (forall sk, enters t sk -> rd sk (cunmarshal t) w v (leaves t sk)) /\
  (headed t = true -> forall h hd, entry_header h hd -> rd (Some h) (cunmarshal t) (hd ++ w) v (fun _ => True)).

Section Loops.
Variable t : cty.
Hypothesis IH : reading t.

Lemma loop_ok l ws : Forall2 (laid t) l ws -> forall sk, enters t sk -> rd sk (repeatM (length l) (cunmarshal t)) (concat ws) l (leaves t sk).
Proof using IH.
  induction 1 as [|v w l ws A _ IHl]; intros sk E; cbn [length repeatM concat]; [apply rd_ret; now split|].
  eapply rd_bind; [now apply (proj1 (IH v w A))|]. intros s1 [E1 U1]. rewrite <- (app_nil_r (concat ws)).
  eapply rd_bind; [apply IHl; exact E1|]. intros s2 [E2 U2]. apply rd_ret. split; auto.
Qed.
Lemma one_zero sk v w : rd sk (cunmarshal t) w v (fun _ => True) ->
  rd sk (x <- cunmarshal t ;; set_skip_header (Some 0) ;;; ret x) w v (eq (Some 0)).
Proof using Type.
  intros H. rewrite <- (app_nil_r w). eapply rd_bind; [exact H|]. intros s _. change (@nil Z) with (@nil Z ++ []).
  eapply rd_bind; [apply rd_set|]. intros s' <-. now apply rd_ret.
Qed.
Lemma column_rest l ws : Forall2 (laid t) l ws ->
  rd (Some 0) (repeatM (length l) (x <- cunmarshal t ;; set_skip_header (Some 0) ;;; ret x)) (concat ws) l (eq (Some 0)).
Proof using IH.
  induction 1 as [|v w l ws A _ IHl]; cbn [length repeatM concat]; [now apply rd_ret|].
  eapply rd_bind. { apply one_zero. eapply rd_weaken; [apply (proj1 (IH v w A)), enters_zero|auto]. }
  intros s <-. rewrite <- (app_nil_r (concat ws)). eapply rd_bind; [exact IHl|]. intros s <-. now apply rd_ret.
Qed.
Lemma column_ok l ws w : Forall2 (laid t) l ws -> column_of t ws w -> (headed t = false -> forall sk, enters t sk) ->
  rd (Some 6) (repeatM (length l) (x <- cunmarshal t ;; set_skip_header (Some 0) ;;; ret x)) w l usual.
Proof using IH.
  intros F C U. unfold column_of in C. destruct F as [|v x l ws A F]; cbn [length repeatM].
  - destruct (headed t); subst w; apply rd_ret; unfold usual; auto.
  - assert (G : forall y, rd (Some 6) (cunmarshal t) y v (fun _ => True) ->
      rd (Some 6) (y <- (x <- cunmarshal t ;; set_skip_header (Some 0) ;;; ret x) ;; ys <- repeatM (length l) (x <- cunmarshal t ;; set_skip_header (Some 0) ;;; ret x) ;; ret (y :: ys))
        (y ++ concat ws) (v :: l) usual).
    { intros y H. eapply rd_bind; [apply one_zero, H|]. intros s <-. rewrite <- (app_nil_r (concat ws)).
      eapply rd_bind; [apply column_rest, F|]. intros s <-. apply rd_ret. unfold usual; auto. }
    destruct (headed t) eqn:H.
    + destruct C as (hd & EH & ->). cbn [concat]. rewrite app_assoc. apply G. now apply (proj2 (IH v x A)).
    + subst w. apply G. eapply rd_weaken; [apply (proj1 (IH v x A)); now apply U|auto].
Qed.
End Loops.

Lemma unheaded_enters t : headed t = false -> forall sk, enters t sk.
Proof. destruct t; try discriminate; intros; exact I. Qed.

Lemma rd_int4 sk n : 0 <= n < 2 ^ 31 -> rd sk read_i32 (be 4 n) n (eq sk).
Proof. intros H. apply rd_of, reads_sint; [lia|]. red. change (256 ^ Z.of_nat 4 / 2) with (2 ^ 31). lia. Qed.
Lemma len_nat {A} (l : list A) : Z.to_nat (zlen l) = length l.
Proof. rewrite zlen_def. lia. Qed.

(** What follows the header. *)
Lemma after_header {V} (k : R V) w v n :
  (forall sk, rd sk k (be 4 n ++ w) v usual) -> 0 <= n < 2 ^ 30 ->
  (forall sk, usual sk -> rd sk (do_skip_header ;;; k) (be 4 n ++ w) v (fun sk' => usual sk' /\ (usual sk -> usual sk'))) /\
  (true = true -> forall h hd, entry_header h hd -> rd (Some h) (do_skip_header ;;; k) (hd ++ be 4 n ++ w) v (fun _ => True)).
Proof.
  intros K H. split.
  - intros sk U. eapply rd_weaken; [apply rd_count; auto|auto].
  - intros _ h hd E. eapply rd_weaken; [eapply rd_bind; [now apply skip_header|]; intros s <-; apply K|auto].
Qed.

Lemma hash_ws t l ws : hashable t = true -> Forall2 (laid t) l ws -> Forall plain l.
Proof. intros H. induction 1; constructor; [eapply laid_plain; eauto|assumption]. Qed.

Theorem reads_laid t : reading t.
Proof.
  induction t as [p| |t IH|n t IH|t IH|tk IHk tv IHv]; intros v w H; destruct v as [z|s|l|l|l]; cbn [laid] in H; try contradiction.
  - destruct H as [S ->]. split; [|discriminate]. intros sk _. cbn [cunmarshal]. rewrite <- (app_nil_r (be _ _)).
    eapply rd_bind; [apply rd_of|intros s <-; apply rd_ret; split; [exact I|auto]]. change (scalar_bytes p) with (prim_size p). apply reads_prim. now apply scalar_prim_ok.
  - destruct H as [T A]. destruct (proj1 (text_str_ok s) T) as [TL TU]. assert (E : w = str_bytes s).
    { destruct (A (mkW [] 0 [] [])) as (x & E). destruct (writes_appends _ _ (writes_string s ltac:(pose proof (zlen_nonneg s); red; lia)) (mkW [] 0 [] [])) as (y & E').
      rewrite E in E'. injection E' as _ E'. exact E'. }
    subst w. clear A. assert (B : forall sk, rd sk (s <- read_string ;; ret (CStr s)) (str_bytes s) (CStr s) (eq sk)).
    { intros sk. rewrite <- (app_nil_r (str_bytes s)). eapply rd_bind; [apply rd_of, reads_string; auto; lia|]. intros s' <-. now apply rd_ret. }
    split.
    + intros sk E. cbn [cunmarshal]. change (str_bytes s) with ([] ++ str_bytes s). cbn [enters] in *. destruct E as [-> | ->].
      * eapply rd_bind; [apply rd_of, reads_skip_none|]. intros s' <-. eapply rd_weaken; [apply B|]. intros ? <-. split; cbn; auto.
      * eapply rd_bind; [apply skip_zero|]. intros s' <-. eapply rd_weaken; [apply B|]. intros ? <-. split; cbn; auto.
    + intros _ h hd EH. cbn [cunmarshal]. eapply rd_bind; [now apply skip_header|]. intros s' _. eapply rd_weaken; [apply B|auto].
  - destruct H as (ws & F & N & ->). pose proof (zlen_nonneg l) as NN. cbn [cunmarshal enters headed]. unfold leaves. cbn [enters].
    apply after_header; [|lia].
    intros sk. eapply rd_bind; [apply rd_int4; lia|]. intros s1 _. destruct (Z.ltb_spec (zlen l) 0); [lia|].
    change (concat ws) with ([] ++ concat ws). eapply rd_bind; [apply rd_set|]. intros s2 <-.
    rewrite len_nat, <- (app_nil_r (concat ws)). eapply rd_bind; [apply (loop_ok t IH l ws F), enters_none|].
    intros s3 [_ E]. apply rd_ret, E. now left.
  - destruct H as (ws & F & <- & HT & ->). cbn [headed]. split; [|rewrite HT; discriminate]. intros sk _. cbn [cunmarshal].
    rewrite <- (app_nil_r (concat ws)). eapply rd_bind; [apply (loop_ok t IH l ws F); now apply unheaded_enters|].
    intros s [_ E]. apply rd_ret. split; [exact I|exact E].
  - destruct H as (ws & F & ND & HT & N & ->). pose proof (zlen_nonneg l) as NN. cbn [cunmarshal enters headed]. unfold leaves. cbn [enters].
    apply after_header; [|lia].
    intros sk. eapply rd_bind; [apply rd_int4; lia|]. intros s1 _. destruct (Z.ltb_spec (zlen l) 0); [lia|].
    change (concat ws) with ([] ++ concat ws). eapply rd_bind; [apply rd_set|]. intros s2 <-.
    rewrite len_nat, <- (app_nil_r (concat ws)). eapply rd_bind; [apply (loop_ok t IH l ws F), enters_none|].
    intros s3 [_ E]. rewrite set_of_distinct by (eauto using hash_ws). apply rd_ret, E. now left.
  - destruct H as (ks & vs & wk & wv & FK & FV & ND & HK & N & CK & CV & ->). pose proof (zlen_nonneg l) as NN.
    cbn [cunmarshal enters headed]. unfold leaves. cbn [enters]. apply after_header; [|lia].
    intros sk. eapply rd_bind; [apply rd_int4; lia|]. intros s1 _. destruct (Z.ltb_spec (zlen l) 0); [lia|].
    change (wk ++ wv) with ([] ++ wk ++ wv). eapply rd_bind; [apply rd_set|]. intros s2 <-.
    pose proof (column_ok tk IHk (map fst l) ks wk FK CK (unheaded_enters tk)) as RK. pose proof (column_ok tv IHv (map snd l) vs wv FV CV (unheaded_enters tv)) as RV.
    rewrite map_length in RK, RV. rewrite len_nat.
    eapply rd_bind; [exact RK|]. intros s3 _. change wv with ([] ++ wv). eapply rd_bind; [apply rd_set|]. intros s4 <-.
    rewrite <- (app_nil_r wv). eapply rd_bind; [exact RV|]. intros s5 U.
    replace (combine (map fst l) (map snd l)) with l by (clear; induction l as [|(a, b) l IH]; cbn; congruence).
    rewrite map_of_distinct; [now apply rd_ret| |exact ND].
    assert (P : Forall plain (map fst l)) by (eauto using hash_ws). clear - P.
    induction l as [|x l IH]; constructor; inversion P; auto.
Qed.

(** One entry, as it is in a basket. *)
Lemma entry_laid t v w h hd : laid t v w -> (if headed t then entry_header h hd else hd = []) ->
  rrun 0 (set_skip_header (Some h) ;;; cunmarshal t) (hd ++ w) = Ok v.
Proof.
  intros A E. destruct (reads_laid t v w A) as [R1 R2].
  assert (G : rd (Some h) (cunmarshal t) (hd ++ w) v (fun _ => True)).
  { destruct (headed t) eqn:H; [now apply R2|]. subst hd. eapply rd_weaken; [apply R1, unheaded_enters, H|auto]. }
  destruct (G [] [] 0 []) as (s & _ & E'). unfold rrun, r_new. unfold set_skip_header, modify. unfold bind at 1. unfold r_set_skip. cbn [rp rc roff rrefs].
  cbn [app] in E'. rewrite app_nil_r in E'. rewrite (@zlen_nil Z) in E'. now rewrite E'.
Qed.

(** The types without sets and maps are read as before. *)
Lemma repeat_map {A B} (f : A -> B) (m : R A) (m' : R B) : (forall r, m' r = (x <- m ;; ret (f x)) r) ->
  forall n r, repeatM n m' r = (l <- repeatM n m ;; ret (map f l)) r.
Proof.
  intros E. induction n as [|n IH]; intros r; [reflexivity|]. cbn [repeatM]. unfold bind in *. rewrite E. unfold ret in *.
  destruct (m r) as [(x, r1)|e| | |]; try reflexivity. rewrite IH. destruct (repeatM n m r1) as [(l, r2)|e| | |]; reflexivity.
Qed.
Lemma emb_reads t : forall r, cunmarshal (emb t) r = (v <- unmarshal t ;; ret (embv v)) r.
Proof.
  induction t as [p| |t IH|n t IH]; intros r; cbn [emb cunmarshal unmarshal]; unfold bind, ret.
  - destruct (read_prim p r) as [(x, r1)|e| | |]; reflexivity.
  - destruct (do_skip_header r) as [(x, r1)|e| | |]; try reflexivity. destruct (read_string r1) as [(y, r2)|e| | |]; reflexivity.
  - destruct (do_skip_header r) as [([], r1)|e| | |]; try reflexivity. destruct (read_i32 r1) as [(n, r2)|e| | |]; try reflexivity.
    destruct (n <? 0); [reflexivity|]. destruct (set_skip_header None r2) as [(x, r3)|e| | |]; try reflexivity.
    rewrite (repeat_map embv _ _ IH). unfold bind, ret. destruct (repeatM (Z.to_nat n) (unmarshal t) r3) as [(l, r4)|e| | |]; reflexivity.
  - rewrite (repeat_map embv _ _ IH). unfold bind, ret. destruct (repeatM n (unmarshal t) r) as [(l, r4)|e| | |]; reflexivity.
Qed.
Lemma emb_classes t : c_classes (emb t) = Some (r_classes t).
Proof. induction t as [p| |t IH|n t IH]; cbn [emb c_classes r_classes]; try reflexivity; now rewrite IH. Qed.
