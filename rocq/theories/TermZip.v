(** Putting sub-branches together ends. *)
From Verif Require Export TermCol.

(** A chunk that announces entries, or whose entries take bytes. *)
Definition solid (c : chunk) : Prop :=
  match c with Regular n s _ => 0 < to_u64 n <= n \/ to_u64 s <> 0 | Irregular _ _ _ => True end.

(** What is left of a chunk of which [c] entries were taken. *)
Definition rest_of (p : option chunk * Z) : nat :=
  match fst p with
  | Some (Regular n _ buf) => (Z.to_nat n + length buf) - Z.to_nat (snd p)
  | _ => 0
  end.
Definition todo (z : zipper) : nat :=
  list_sum (map chunk_work (concat (z_its z))) + list_sum (map rest_of (combine (z_out z) (z_cur z))).
Definition zok (z : zipper) : Prop :=
  length (z_out z) = length (z_cur z) /\ length (z_nb z) = length (z_cur z) /\
  forall j n s buf c m, nth_error (z_out z) j = Some (Some (Regular n s buf)) -> nth_error (z_cur z) j = Some c ->
    nth_error (z_nb z) j = Some m -> m = n /\ 0 <= c /\ (0 < to_u64 n <= n -> c < to_u64 n).
Definition all_solid (z : zipper) : Prop :=
  Forall (Forall solid) (z_its z) /\ forall j c, nth_error (z_out z) j = Some (Some c) -> solid c.

(** ** [upd] *)
Lemma upd_length {A} i (a : A) l : length (upd i a l) = length l.
Proof. revert i; induction l as [|x l IH]; intros [|i]; cbn; auto. Qed.
Lemma nth_upd_eq {A} i (a : A) l : (i < length l)%nat -> nth_error (upd i a l) i = Some a.
Proof. revert i; induction l as [|x l IH]; intros [|i] H; cbn in *; try lia; auto. apply IH. lia. Qed.
Lemma nth_upd_ne {A} i j (a : A) l : i <> j -> nth_error (upd i a l) j = nth_error l j.
Proof. revert i j; induction l as [|x l IH]; intros [|i] [|j] H; cbn; auto; try congruence. Qed.
Lemma upd_combine {A B} i (a : A) (b : B) l m : combine (upd i a l) (upd i b m) = upd i (a, b) (combine l m).
Proof. revert i m; induction l as [|x l IH]; intros [|i] [|y m]; cbn; auto. now rewrite IH. Qed.
Lemma upd_upd {A} i (a b : A) l : upd i a (upd i b l) = upd i a l.
Proof. revert i; induction l as [|x l IH]; intros [|i]; cbn; auto. now rewrite IH. Qed.
Lemma list_sum_cons x l : list_sum (x :: l) = (x + list_sum l)%nat. Proof. reflexivity. Qed.
Lemma upd_sum {A} (f : A -> nat) i a l o : nth_error l i = Some o ->
  (list_sum (map f (upd i a l)) + f o = list_sum (map f l) + f a)%nat.
Proof.
  revert i; induction l as [|x l IH]; intros [|i] H; cbn [nth_error] in H; try discriminate; cbn [upd map]; rewrite !list_sum_cons.
  - injection H as <-. lia.
  - apply IH in H. lia.
Qed.
Lemma sum_concat_upd i (c : chunk) r (its : list (list chunk)) : nth_error its i = Some (c :: r) ->
  (list_sum (map chunk_work (concat (upd i r its))) + chunk_work c = list_sum (map chunk_work (concat its)))%nat.
Proof.
  revert i; induction its as [|x its IH]; intros [|i] H; cbn [nth_error] in H; try discriminate; cbn [upd concat];
    rewrite !map_app, !list_sum_app.
  - injection H as ->. cbn [map]. rewrite !list_sum_cons. lia.
  - apply IH in H. lia.
Qed.
Lemma nth_combine {A B} i (l : list A) (m : list B) a b : nth_error l i = Some a -> nth_error m i = Some b ->
  nth_error (combine l m) i = Some (a, b).
Proof.
  revert i m; induction l as [|x l IH]; intros [|i] [|y m] H1 H2; cbn in *; try discriminate.
  - congruence.
  - now apply IH.
Qed.
Lemma nth_len {A} i (l : list A) a : nth_error l i = Some a -> (i < length l)%nat.
Proof. intros H. apply nth_error_Some. congruence. Qed.
Lemma Forall_upd {A} (P : A -> Prop) i a l : Forall P l -> P a -> Forall P (upd i a l).
Proof. intros F Pa. revert i; induction F as [|x l Px F IH]; intros [|i]; cbn; constructor; auto. Qed.

(** ** One entry *)
Lemma slice_facts buf a b x : slice buf a b = Ok x -> 0 <= a /\ a <= b /\ b <= zlen buf /\ zlen x = b - a.
Proof.
  unfold slice. destruct (_ && _) eqn:E; [|discriminate]. intros H. injection H as <-.
  repeat split; try lia. rewrite zsub_length; lia.
Qed.

Definition entry_step (ib : nat) (z : zipper) : res (bytes * zipper) :=
  match nth_error (z_out z) ib, nth_error (z_cur z) ib, nth_error (z_nb z) ib with
  | Some (Some (Regular _ c buf)), Some cur, Some nb =>
      let csize := to_u64 c in
      x <-? slice buf (cur * csize) ((cur + 1) * csize) ;;
      let z1 := mkZip (z_its z) (z_out z) (upd ib (cur + 1) (z_cur z)) (z_nb z) in
      z2 <-? (if cur + 1 =? to_u64 nb
              then fill_one ib (mkZip (z_its z1) (upd ib None (z_out z1)) (z_cur z1) (z_nb z1))
              else Ok z1) ;;
      Ok (x, z2)
  | _, _, _ => Panic
  end.
Lemma zip_loop_step k ib out z : zip_loop (S k) ib out z =
  (xz <-? entry_step ib z ;; zip_loop k (S ib) (out ++ fst xz) (snd xz)).
Proof.
  cbn [zip_loop]. unfold entry_step.
  destruct (nth_error (z_out z) ib) as [[[n c buf|]|]|]; try reflexivity.
  destruct (nth_error (z_cur z) ib) as [cur|]; try reflexivity.
  destruct (nth_error (z_nb z) ib) as [nb|]; try reflexivity. cbv zeta.
  destruct (slice _ _ _) as [x| | | |]; try reflexivity. cbn [rbind].
  destruct (if _ =? _ then _ else _) as [z2| | | |]; reflexivity.
Qed.

Lemma ends_fill_one i z : ends (fill_one i z).
Proof. unfold fill_one. destruct (nth_error (z_its z) i) as [[|c r]|]; auto with ends. Qed.
Lemma ends_entry_step ib z : ends (entry_step ib z).
Proof.
  unfold entry_step.
  destruct (nth_error (z_out z) ib) as [[[n c buf|]|]|]; auto with ends.
  destruct (nth_error (z_cur z) ib) as [cur|]; auto with ends.
  destruct (nth_error (z_nb z) ib) as [nb|]; auto with ends. cbv zeta.
  apply ends_rbind; [apply ends_slice|]. intros x _. apply ends_rbind; [|auto with ends].
  destruct (_ =? _); [apply ends_fill_one|auto with ends].
Qed.

Lemma to_u64_nonneg z : 0 <= to_u64 z. Proof. unfold to_u64, wrap_u. pose proof (Z.mod_pos_bound z (256 ^ Z.of_nat 8) ltac:(lia)). lia. Qed.

Lemma entry_step_ok ib z x z' : zok z -> entry_step ib z = Ok (x, z') ->
  zok z' /\ (todo z' <= todo z)%nat /\ (x <> [] -> todo z' < todo z)%nat /\
  (all_solid z -> all_solid z' /\ (todo z' < todo z)%nat) /\ length (z_cur z') = length (z_cur z).
Proof.
  intros (L1 & L2 & INV) H. unfold entry_step in H.
  destruct (nth_error (z_out z) ib) as [[[n c buf|]|]|] eqn:EO; try discriminate.
  destruct (nth_error (z_cur z) ib) as [cur|] eqn:EC; try discriminate.
  destruct (nth_error (z_nb z) ib) as [nb|] eqn:EN; try discriminate. cbv zeta in H.
  apply rbind_inv in H as (x0 & HS & H). apply rbind_inv in H as (z2 & H2 & H). injection H as <- <-.
  destruct (INV _ _ _ _ _ _ EO EC EN) as (-> & C0 & CN).
  apply slice_facts in HS as (_ & _ & S3 & S4).
  pose proof (to_u64_nonneg c) as Hc. set (cs := to_u64 c) in *.
  replace ((cur + 1) * cs - cur * cs) with cs in S4 by lia.
  assert (HL : cs <> 0 -> cur + 1 <= zlen buf) by nia.
  pose proof (nth_combine _ _ _ _ _ EO EC) as EOC.
  pose proof (nth_len _ _ _ EO) as LO. pose proof (nth_len _ _ _ EC) as LC. pose proof (nth_len _ _ _ EN) as LN.
  set (p0 := (Some (Regular n c buf), cur)) in *.
  assert (R0 : rest_of p0 = (Z.to_nat n + length buf - Z.to_nat cur)%nat) by reflexivity.
  rewrite zlen_def in HL.
  assert (XN : x0 <> [] -> cs <> 0) by (intros NE E; apply NE, zlen_0_nil; lia).
  assert (SOL : solid (Regular n c buf) -> (0 < rest_of p0)%nat).
  { rewrite R0. cbn [solid]. fold cs. intros [Hn|Hn]; [specialize (CN Hn)|specialize (HL Hn)]; lia. }
  assert (XS : x0 <> [] -> (0 < rest_of p0)%nat) by (rewrite R0; intros NE; specialize (HL (XN NE)); lia).
  destruct (Z.eqb_spec (cur + 1) (to_u64 n)) as [EQ|NE].
  - unfold fill_one in H2. cbn [z_its z_out z_cur z_nb] in H2.
    destruct (nth_error (z_its z) ib) as [[|c2 r2]|] eqn:EI; try discriminate; injection H2 as <-.
    + (* the iterator is exhausted *)
      pose proof (upd_sum rest_of ib (None, cur + 1) _ _ EOC) as US. change (rest_of (None, cur + 1)) with 0%nat in US.
      unfold todo, zok, all_solid. cbn [z_its z_out z_cur z_nb]. rewrite upd_combine, !upd_length.
      split; [split; [exact L1|split; [exact L2|]]|split; [lia|split; [intros NEx; specialize (XS NEx); lia|split; [|reflexivity]]]].
      * intros j n' s' buf' c' m' Q1 Q2 Q3. destruct (Nat.eq_dec ib j) as [<-|NJ].
        -- rewrite nth_upd_eq in Q1 by exact LO. discriminate.
        -- rewrite nth_upd_ne in Q1 by exact NJ. rewrite nth_upd_ne in Q2 by exact NJ. eauto.
      * intros [S1 S2]. split; [split; [exact S1|]|specialize (SOL (S2 _ _ EO)); lia].
        intros j c' Q. destruct (Nat.eq_dec ib j) as [<-|NJ]; [rewrite nth_upd_eq in Q by exact LO; discriminate|].
        rewrite nth_upd_ne in Q by exact NJ. eauto.
    + (* the next chunk *)
      rewrite !upd_upd.
      pose proof (upd_sum rest_of ib (Some c2, 0) _ _ EOC) as US.
      pose proof (sum_concat_upd _ _ _ _ EI) as UI.
      assert (RW : (rest_of (Some c2, 0%Z) <= chunk_work c2)%nat) by (destruct c2; cbn [rest_of fst snd chunk_work]; lia).
      unfold todo, zok, all_solid. cbn [z_its z_out z_cur z_nb]. rewrite upd_combine, !upd_length.
      split; [split; [exact L1|split; [exact L2|]]|split; [lia|split; [intros NEx; specialize (XS NEx); lia|split; [|reflexivity]]]].
      * intros j n' s' buf' c' m' Q1 Q2 Q3. destruct (Nat.eq_dec ib j) as [<-|NJ].
        -- rewrite nth_upd_eq in Q1 by assumption. rewrite nth_upd_eq in Q2 by assumption. rewrite nth_upd_eq in Q3 by assumption. injection Q1 as ->. injection Q2 as <-. injection Q3 as <-.
           cbn [chunk_n]. repeat split; lia.
        -- rewrite nth_upd_ne in Q1 by exact NJ. rewrite nth_upd_ne in Q2 by exact NJ. rewrite nth_upd_ne in Q3 by exact NJ. eauto.
      * intros [S1 S2]. split; [split|specialize (SOL (S2 _ _ EO)); lia].
        -- apply Forall_upd; [exact S1|]. apply nth_error_In in EI. rewrite Forall_forall in S1. specialize (S1 _ EI). now inversion S1.
        -- intros j c' Q. destruct (Nat.eq_dec ib j) as [<-|NJ].
           ++ rewrite nth_upd_eq in Q by exact LO. injection Q as <-. apply nth_error_In in EI. rewrite Forall_forall in S1.
              specialize (S1 _ EI). now inversion S1.
           ++ rewrite nth_upd_ne in Q by exact NJ. eauto.
  - injection H2 as <-.
    pose proof (upd_sum rest_of ib (Some (Regular n c buf), cur + 1) _ _ EOC) as US.
    assert (R1 : rest_of (Some (Regular n c buf), cur + 1) = (Z.to_nat n + length buf - Z.to_nat (cur + 1))%nat) by reflexivity.
    assert (UO : upd ib (Some (Regular n c buf)) (z_out z) = z_out z).
    { clear - EO. revert ib EO. induction (z_out z) as [|o l IH]; intros [|i] E; cbn in *; try discriminate; [congruence|]. now rewrite IH. }
    rewrite <- upd_combine, UO in US.
    unfold todo, zok, all_solid. cbn [z_its z_out z_cur z_nb]. rewrite !upd_length.
    split; [split; [exact L1|split; [exact L2|]]|split; [lia|split; [intros NEx; specialize (XS NEx); lia|split; [|reflexivity]]]].
    + intros j n' s' buf' c' m' Q1 Q2 Q3. destruct (Nat.eq_dec ib j) as [<-|NJ].
      * rewrite nth_upd_eq in Q2 by exact LC. injection Q2 as <-. rewrite EO in Q1. injection Q1 as <- <- <-.
        rewrite EN in Q3. injection Q3 as <-. repeat split; [lia|]. intros Hn. specialize (CN Hn). lia.
      * rewrite nth_upd_ne in Q2 by exact NJ. eauto.
    + intros S. split; [exact S|]. destruct S as [S1 S2]. specialize (SOL (S2 _ _ EO)). lia.
Qed.

(** ** One row *)
Lemma zip_loop_facts k : forall ib out z out' z', zok z -> zip_loop k ib out z = Ok (out', z') ->
  zok z' /\ (todo z' <= todo z)%nat /\ (exists y, out' = out ++ y /\ (y <> [] -> todo z' < todo z)%nat) /\
  (all_solid z -> all_solid z' /\ ((0 < k)%nat -> (todo z' < todo z)%nat)).
Proof.
  induction k as [|k IH]; intros ib out z out' z' Z H.
  - cbn [zip_loop] in H. injection H as <- <-. split; [exact Z|]. split; [lia|]. split; [|split; [assumption|lia]].
    exists []. rewrite app_nil_r. split; [reflexivity|congruence].
  - rewrite zip_loop_step in H. apply rbind_inv in H as ([x z1] & H1 & H2). cbn [fst snd] in H2.
    apply (entry_step_ok ib z x z1 Z) in H1 as (Z1 & T1 & X1 & S1 & _).
    apply (IH _ _ _ _ _ Z1) in H2 as (Z2 & T2 & (y & -> & Y2) & S2).
    split; [exact Z2|]. split; [lia|]. split.
    + exists (x ++ y). split; [now rewrite app_assoc|]. intros NE.
      destruct x as [|b x]; [specialize (Y2 NE); lia|]. specialize (X1 ltac:(discriminate)). lia.
    + intros S. destruct (S1 S) as [S3 S4]. destruct (S2 S3) as [S5 _]. split; [exact S5|]. intros _. lia.
Qed.
Lemma ends_zip_loop k : forall ib out z, ends (zip_loop k ib out z).
Proof.
  induction k as [|k IH]; intros ib out z; [intros X; discriminate X|]. rewrite zip_loop_step.
  apply ends_rbind; [apply ends_entry_step|]. intros [x z1] _. apply IH.
Qed.

Definition heads (its : list (list chunk)) : list chunk := flat_map (fun it => match it with c :: _ => [c] | [] => [] end) its.
Lemma heads_sum its : (list_sum (map chunk_work (concat (map (fun it => tl it) its))) + list_sum (map chunk_work (heads its)) =
  list_sum (map chunk_work (concat its)))%nat.
Proof.
  induction its as [|it its IH]; [reflexivity|]. unfold heads in *. cbn [map concat flat_map].
  rewrite !map_app, !list_sum_app. destruct it as [|c r]; cbn [tl map]; rewrite ?list_sum_cons; change (list_sum []) with 0%nat; lia.
Qed.
Lemma rest_sum l : (list_sum (map rest_of (combine (map Some l) (map (fun _ => 0%Z) l))) <= list_sum (map chunk_work l))%nat.
Proof.
  induction l as [|c l IH]; [cbn; lia|]. cbn [map combine]. rewrite !list_sum_cons.
  assert (rest_of (Some c, 0%Z) <= chunk_work c)%nat by (destruct c; cbn [rest_of fst snd chunk_work]; lia). lia.
Qed.
Lemma fill_output_facts its : let z := mkZip its [] [] [] in
  zok (fill_output z) /\ (todo (fill_output z) <= todo z)%nat /\ (all_solid z -> all_solid (fill_output z)).
Proof.
  cbv zeta. unfold fill_output. cbn [z_its z_out z_cur z_nb app]. fold (heads its).
  split; [|split].
  - unfold zok. cbn [z_its z_out z_cur z_nb]. rewrite !map_length. split; [reflexivity|]. split; [reflexivity|].
    intros j n s buf c m H H0 H1. rewrite nth_error_map in H, H0, H1.
    destruct (nth_error (heads its) j) as [f|]; cbn in H, H0, H1; try discriminate.
    injection H as ->. injection H0 as <-. injection H1 as <-. cbn [chunk_n]. split; [reflexivity|]. split; lia.
  - unfold todo. cbn [z_its z_out z_cur z_nb combine map]. change (list_sum []) with 0%nat.
    pose proof (heads_sum its). pose proof (rest_sum (heads its)). lia.
  - intros [S1 _]. cbn [z_its] in S1. unfold all_solid. cbn [z_its z_out]. split.
    + induction S1 as [|it l F _ IH]; cbn [map]; constructor; auto. destruct F; cbn; auto.
    + intros j c Q. rewrite nth_error_map in Q. destruct (nth_error (heads its) j) as [f|] eqn:E; cbn in Q; [|discriminate].
      injection Q as ->. apply nth_error_In in E. unfold heads in E. apply in_flat_map in E as (it & Hi & Hc).
      destruct it as [|c0 r]; [destruct Hc|]. destruct Hc as [->|[]]. rewrite Forall_forall in S1. specialize (S1 _ Hi). now inversion S1.
Qed.

(** ** [next] *)
Definition zstart (z : zipper) : zipper := match z_out z with [] => fill_output z | _ => z end.
(** The states of the iterator: not started, or after at least one call. *)
Definition zready (z : zipper) : Prop := (exists its, z = mkZip its [] [] []) \/ (zok z /\ z_out z <> []).
Lemma zstart_facts z : zready z ->
  zok (zstart z) /\ (todo (zstart z) <= todo z)%nat /\ (all_solid z -> all_solid (zstart z)).
Proof.
  intros [[its ->]|[Z N]].
  - exact (fill_output_facts its).
  - unfold zstart. destruct (z_out z); [congruence|]. auto.
Qed.
Lemma zip_next_eq z : zip_next z =
  match z_out (zstart z) with
  | [] => Ok (None, zstart z)
  | out =>
      if existsb (fun c => match c with None => true | Some _ => false end) out then Ok (None, zstart z)
      else if negb (forallb is_regular out) then Panic
      else bz <-? zip_loop (length (z_cur (zstart z))) 0 [] (zstart z) ;; Ok (Some (fst bz), snd bz)
  end.
Proof. reflexivity. Qed.
Lemma ends_zip_next z : ends (zip_next z).
Proof.
  rewrite zip_next_eq. destruct (z_out (zstart z)) as [|o l]; [auto with ends|]. cbv zeta.
  match goal with |- context [existsb ?f ?x] => destruct (existsb f x) | H : context [existsb ?f ?x] |- _ => destruct (existsb f x) end; [auto with ends|]. destruct (negb _); [auto with ends|].
  apply ends_rbind; [apply ends_zip_loop|auto with ends].
Qed.
Lemma zip_loop_len k : forall ib out z out' z', zip_loop k ib out z = Ok (out', z') -> length (z_out z') = length (z_out z).
Proof.
  induction k as [|k IH]; intros ib out z out' z' H; [cbn in H; now injection H as <- <-|].
  rewrite zip_loop_step in H. apply rbind_inv in H as ([x z1] & H1 & H2). cbn [fst snd] in H2. rewrite (IH _ _ _ _ _ H2).
  unfold entry_step in H1.
  destruct (nth_error (z_out z) ib) as [[[n c buf|]|]|] eqn:EO; try discriminate.
  destruct (nth_error (z_cur z) ib) as [cur|] eqn:EC; try discriminate.
  destruct (nth_error (z_nb z) ib) as [nb|] eqn:EN; try discriminate. cbv zeta in H1.
  apply rbind_inv in H1 as (x0 & HS & H). apply rbind_inv in H as (z3 & H3 & H). injection H as <- <-.
  destruct (_ =? _); [|injection H3 as <-; reflexivity].
  unfold fill_one in H3. cbn [z_its z_out z_cur z_nb] in H3.
  destruct (nth_error (z_its z) ib) as [[|c2 r2]|]; try discriminate; injection H3 as <-; cbn [z_out]; now rewrite !upd_length.
Qed.
Lemma zip_next_facts z b z' : zready z -> zip_next z = Ok (Some b, z') ->
  zready z' /\ (todo z' <= todo z)%nat /\ (b <> [] -> todo z' < todo z)%nat /\
  (all_solid z -> all_solid z' /\ (todo z' < todo z)%nat).
Proof.
  intros R H. destruct (zstart_facts z R) as (Z & T & S). rewrite zip_next_eq in H.
  destruct (z_out (zstart z)) as [|o l] eqn:E; [discriminate|]. cbv zeta in H.
  match goal with |- context [existsb ?f ?x] => destruct (existsb f x) | H : context [existsb ?f ?x] |- _ => destruct (existsb f x) end; [discriminate|]. destruct (negb _); [discriminate|].
  apply rbind_inv in H as ([b' z1] & H1 & H2). cbn [fst snd] in H2. injection H2 as <- <-.
  pose proof (zip_loop_len _ _ _ _ _ _ H1) as L. rewrite E in L.
  assert (LC : (0 < length (z_cur (zstart z)))%nat) by (destruct Z as [<- _]; rewrite E; cbn; lia).
  apply (zip_loop_facts _ _ _ _ _ _ Z) in H1 as (Z1 & T1 & (y & Ey & Y) & S1). cbn [app] in Ey. subst b'.
  split; [right; split; [exact Z1|]; destruct (z_out z1); [discriminate L|discriminate]|].
  split; [lia|]. split; [intros NE; specialize (Y NE); lia|].
  intros A. destruct (S1 (S A)) as [A1 A2]. split; [exact A1|]. specialize (A2 LC). lia.
Qed.

(** ** Collecting *)
Lemma ends_zip_collect {A} (func : bytes -> res A) : (forall b, ends (func b)) ->
  forall n z, zready z -> (forall v, func [] <> Ok v) \/ all_solid z -> (todo z < n)%nat -> ends (zip_collect func n z).
Proof.
  intros F n. induction n as [|n IH]; intros z R G L; [lia|]. cbn [zip_collect].
  apply ends_rbind; [apply ends_zip_next|]. intros [[b|] z'] E; [|auto with ends].
  apply (zip_next_facts z b z' R) in E as (R' & T & NE & S).
  apply ends_rbind; [apply F|]. intros v Ev. apply ends_rbind; [|auto with ends].
  destruct G as [G|G].
  - apply IH; [exact R'|now left|]. destruct b as [|x b]; [now apply G in Ev|]. specialize (NE ltac:(discriminate)). lia.
  - destruct (S G) as [G' L']. apply IH; [exact R'|now right|lia].
Qed.
Lemma ends_zip_all {A} (func : bytes -> res A) its : (forall b, ends (func b)) ->
  (forall v, func [] <> Ok v) \/ Forall (Forall solid) its -> ends (zip_all func its).
Proof.
  intros F G. unfold zip_all. apply (ends_zip_collect func F).
  - left. now exists its.
  - destruct G as [G|G]; [now left|right]. split; [exact G|]. intros [|j] c H; discriminate.
  - unfold todo. cbn [z_its z_out z_cur combine map]. change (list_sum []) with 0%nat. lia.
Qed.
