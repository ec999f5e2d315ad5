(** Facts about reading step by step. *)
From Verif Require Import Base Lazy SpecTree SpecDamage DamageFacts.

Definition all_of {A} (c : cursor A) : res (list A) :=
  ls <-? res_map (fun r => r) (cu_todo c) ;; Ok (cu_front c ++ concat ls).

(** The first [n] values need only the baskets that hold them. *)
Lemma next_front {A} (c : cursor A) a l todo : cu_front c = [] -> cu_todo c = Ok (a :: l) :: todo -> next c = Ok (Some a, mkCursor l todo).
Proof. intros F T. unfold next. rewrite F, T. reflexivity. Qed.

Lemma take_prefix {A} (parts : list (list A)) : forall n front rest, (n <= length (front ++ concat parts))%nat ->
  exists c', take n (mkCursor front (map Ok parts ++ rest)) = Ok (firstn n (front ++ concat parts), c').
Proof.
  induction parts as [|p parts IH]; intros n front rest.
  - cbn [concat map app]. rewrite app_nil_r. revert front; induction n as [|n IHn]; intros front H; [eexists; reflexivity|].
    destruct front as [|a front]; [cbn [length app] in H; lia|]. cbn [take next cu_front cu_todo rbind fst snd firstn].
    destruct (IHn front) as (c' & E); [cbn [length app] in H; lia|]. rewrite E. eexists. reflexivity.
  - revert front; induction n as [|n IHn]; intros front H; [eexists; reflexivity|].
    destruct front as [|a front].
    + cbn [map concat app] in *. destruct p as [|a p].
      * cbn [app] in *. destruct (IH (S n) [] rest) as (c' & E); [exact H|]. cbn [app] in E. exists c'. exact E.
      * cbn [take next cu_front cu_todo next_todo rbind fst snd app firstn] in *.
        destruct (IH n p rest) as (c' & E); [cbn [length app] in H; lia|]. rewrite E. eexists. reflexivity.
    + cbn [take next cu_front cu_todo rbind fst snd app firstn] in *. destruct (IHn front) as (c' & E); [cbn [length app] in H; lia|]. rewrite E. eexists. reflexivity.
Qed.

Lemma res_map_id_ok {A} (l : list (res A)) xs : res_map (fun r => r) l = Ok xs <-> l = map Ok xs.
Proof.
  revert xs; induction l as [|r l IH]; intros xs; cbn [res_map].
  - split; intros H; [injection H as <-; reflexivity|]. destruct xs; [reflexivity|discriminate].
  - destruct r as [a|?| | |]; cbn [rbind]; try (split; [discriminate|destruct xs; discriminate]).
    destruct (res_map (fun r => r) l) as [ys|?| | |]; cbn [rbind].
    + split; intros H.
      * injection H as <-. cbn [map]. f_equal. now apply IH.
      * destruct xs as [|x xs]; [discriminate|]. injection H as -> H. apply IH in H. now injection H as ->.
    + split; [discriminate|]. intros H. destruct xs as [|x xs]; [discriminate|]. injection H as -> H. apply IH in H. discriminate.
    + split; [discriminate|]. intros H. destruct xs as [|x xs]; [discriminate|]. injection H as -> H. apply IH in H. discriminate.
    + split; [discriminate|]. intros H. destruct xs as [|x xs]; [discriminate|]. injection H as -> H. apply IH in H. discriminate.
    + split; [discriminate|]. intros H. destruct xs as [|x xs]; [discriminate|]. injection H as -> H. apply IH in H. discriminate.
Qed.

(** Taking more than there is. *)
Lemma take_all {A} (parts : list (list A)) : forall n front, (length (front ++ concat parts) < n)%nat ->
  take n (mkCursor front (map Ok parts)) = Ok (front ++ concat parts, mkCursor [] []).
Proof.
  induction parts as [|p parts IH]; intros n front.
  - cbn [concat map]. rewrite app_nil_r. revert front; induction n as [|n IHn]; intros front H; [lia|].
    destruct front as [|a front]; [reflexivity|]. cbn [take next cu_front cu_todo rbind fst snd].
    rewrite IHn by (cbn [length app] in H; lia). reflexivity.
  - revert front; induction n as [|n IHn]; intros front H; [lia|].
    destruct front as [|a front].
    + cbn [map concat app] in *. destruct p as [|a p].
      * cbn [app] in *. exact (IH (S n) [] H).
      * cbn [take next cu_front cu_todo next_todo rbind fst snd app] in *. rewrite (IH n p) by (cbn [length app] in H; lia). reflexivity.
    + cbn [take next cu_front cu_todo rbind fst snd app] in *. rewrite IHn by (cbn [length app] in H; lia). reflexivity.
Qed.

(** Reaching the end means that everything has been read. *)
Lemma next_end {A} (todo : list (res (list A))) c' : next_todo todo = Ok (None, c') -> exists parts, todo = map Ok parts /\ concat parts = [].
Proof.
  induction todo as [|r todo IH]; cbn [next_todo]; intros H; [exists []; auto|].
  destruct r as [[|a l]|?| | |]; cbn [rbind] in H; try discriminate.
  destruct (IH H) as (ps & -> & E). exists ([] :: ps). auto.
Qed.
Lemma next_some {A} (todo : list (res (list A))) a c' : next_todo todo = Ok (Some a, c') ->
  exists parts, todo = map Ok parts ++ cu_todo c' /\ concat parts = a :: cu_front c'.
Proof.
  induction todo as [|r todo IH]; cbn [next_todo]; intros H; [discriminate|].
  destruct r as [[|x l]|?| | |]; cbn [rbind] in H; try discriminate.
  - destruct (IH H) as (ps & E & E'). exists ([] :: ps). cbn [map app concat]. now rewrite E, E'.
  - injection H as -> <-. exists [a :: l]. cbn [map app concat cu_front cu_todo]. now rewrite app_nil_r.
Qed.

Lemma take_ended {A} n : forall (c c' : cursor A) l, take n c = Ok (l, c') -> (length l < n)%nat ->
  exists parts, cu_todo c = map Ok parts /\ cu_front c ++ concat parts = l.
Proof.
  induction n as [|n IH]; intros c c' l H HL; [lia|]. cbn [take] in H. apply rbind_inv in H as ((o & c1) & E & H). cbn [fst snd] in H.
  unfold next in E. destruct (cu_front c) as [|a fr] eqn:F.
  - destruct o as [a|].
    + apply rbind_inv in H as ((l1 & c2) & E1 & H). cbn [fst snd] in H. injection H as <- <-.
      destruct (next_some _ _ _ E) as (p1 & Q1 & Q2). destruct (IH _ _ _ E1) as (p2 & Q3 & Q4); [cbn [length] in HL; lia|].
      exists (p1 ++ p2). rewrite Q1, Q3, map_app. split; [reflexivity|]. rewrite concat_app, Q2. cbn [app]. now rewrite Q4.
    + injection H as <- <-. destruct (next_end _ _ E) as (p & -> & Q). exists p. rewrite Q. auto.
  - injection E as <- <-. apply rbind_inv in H as ((l1 & c2) & E1 & H). cbn [fst snd] in H. injection H as <- <-.
    destruct (IH _ _ _ E1) as (p2 & Q3 & Q4); [cbn [length] in HL; lia|]. cbn [cu_front cu_todo] in *. exists p2. split; [exact Q3|]. cbn [app]. now rewrite Q4.
Qed.

(** ** The iterator of a branch *)
Section Col.
Context {L : decoders}.
Variables (sis : list sinfo) (t : ty) (b : branch).
Hypothesis (NS : br_subs b = []).

Lemma todo_buffer d : baskets_buffer d sis b = (todo <-? baskets_todo d sis b ;; res_map (fun c => c) todo).
Proof.
  unfold baskets_buffer, baskets_todo. destruct (sizes_for b) as [sz|?| | |]; try reflexivity. cbn [rbind].
  destruct (leaves_for b) as [ls|?| | |]; try reflexivity. cbn [rbind].
  set (l := filter _ _). 
  assert (RM : forall em, (rest <-? res_map (fun '(seek, len, size, l) => basket_chunk d sis b seek len size l) l ;; Ok (em ++ rest)) =
    res_map (fun c => c) (map Ok em ++ map (fun '(seek, len, size, l) => basket_chunk d sis b seek len size l) l)).
  { intros em. induction em as [|c em IH]; cbn [map app res_map].
    - induction l as [|x l IH]; [reflexivity|]. cbn [map res_map]. rewrite <- IH. destruct x as [[[s n] z] lf].
      destruct (basket_chunk d sis b s n z lf); [|reflexivity..]. cbn [rbind]. destruct (res_map _ l); reflexivity.
    - cbn [rbind]. rewrite <- IH. destruct (res_map _ l); reflexivity. }
  unfold embedded_chunk, embedded_todo. destruct (br_baskets b) as [|k [|k' ks]].
  - exact (RM []).
  - destruct (br_elem b) as [e|].
    + destruct (header_bytes_from_type _ _ _) as [hb|?| | |]; [|reflexivity..]. cbn [rbind].
      destruct (slices _ _) as [ps|?| | |]; [|reflexivity..]. cbn [rbind]. exact (RM [Irregular 0 ps hb]).
    + exact (RM [_]).
  - reflexivity.
Qed.

Lemma res_map_chunks {A B} (g : A -> res B) (l : list (res A)) xs :
  (cs <-? res_map (fun c => c) l ;; res_map g cs) = Ok xs <-> map (fun c => c' <-? c ;; g c') l = map Ok xs.
Proof.
  revert xs; induction l as [|r l IH]; intros xs; cbn [res_map map rbind].
  - split; intros H; [injection H as <-; reflexivity|]. destruct xs; [reflexivity|discriminate].
  - destruct r as [a|?| | |]; cbn [rbind]; try (split; [discriminate|destruct xs; discriminate]).
    destruct (g a) as [y|?| | |] eqn:G.
    + split; intros H.
      * apply rbind_inv in H as (cs & E & H). apply rbind_inv in E as (cs' & E & H'). injection H' as <-. cbn [res_map] in H. rewrite G in H. cbn [rbind] in H.
        apply rbind_inv in H as (ys & E1 & H). injection H as <-. cbn [map]. f_equal. apply IH. now rewrite E.
      * destruct xs as [|x xs]; [discriminate|]. injection H as -> H. apply IH in H. apply rbind_inv in H as (cs & E & H). rewrite E. cbn [rbind res_map]. rewrite G. cbn [rbind]. now rewrite H.
    + split; [|destruct xs; discriminate]. intros H. apply rbind_inv in H as (cs & E & H). apply rbind_inv in E as (cs' & E & H'). injection H' as <-. cbn [res_map] in H. rewrite G in H. discriminate.
    + split; [|destruct xs; discriminate]. intros H. apply rbind_inv in H as (cs & E & H). apply rbind_inv in E as (cs' & E & H'). injection H' as <-. cbn [res_map] in H. rewrite G in H. discriminate.
    + split; [|destruct xs; discriminate]. intros H. apply rbind_inv in H as (cs & E & H). apply rbind_inv in E as (cs' & E & H'). injection H' as <-. cbn [res_map] in H. rewrite G in H. discriminate.
    + split; [|destruct xs; discriminate]. intros H. apply rbind_inv in H as (cs & E & H). apply rbind_inv in E as (cs' & E & H'). injection H' as <-. cbn [res_map] in H. rewrite G in H. discriminate.
Qed.

(** Collecting everything works exactly if every basket can be read. *)
Lemma as_iter_open d l : as_iter d sis t b = Ok l <->
  exists parts, open_iter d sis t b = Ok (mkCursor [] (map Ok parts)) /\ concat parts = l.
Proof.
  unfold as_iter, open_iter, get_basket. rewrite NS, todo_buffer.
  destruct (item_type_name sis b) as [nm|?| | |]; cbn [rbind]; try (split; [discriminate|intros (? & ? & _); discriminate]).
  destruct (existsb _ _); [|split; [discriminate|intros (? & ? & _); discriminate]].
  destruct (baskets_todo d sis b) as [todo|?| | |]; cbn [rbind]; try (split; [discriminate|intros (? & ? & _); discriminate]).
  pose proof (res_map_chunks (read_chunk (unmarshal t)) todo) as RM. split.
  - intros H. apply rbind_inv in H as (chs & E & H). apply rbind_inv in H as (ls & E1 & H). injection H as <-.
    exists ls. split; [|reflexivity]. f_equal. f_equal. apply RM. rewrite E. exact E1.
  - intros (parts & E & <-). apply (f_equal (fun r => match r with Ok c => cu_todo c | _ => [] end)) in E. cbn [cu_todo] in E.
    apply RM in E. apply rbind_inv in E as (cs & E & E1). rewrite E. cbn [rbind]. now rewrite E1.
Qed.
End Col.

(** ** Branches with one leaf and no basket in their record *)
Section Plain.
Context {L : decoders}.
Variables (sis : list sinfo) (t : ty) (b : branch) (lf : leaf).
Hypotheses (NS : br_subs b = []) (NE : br_baskets b = []) (OL : br_leaves b = [lf])
  (LE : length (b_bytes (br_core b)) = length (b_seek (br_core b))).

Definition get_one (d : bytes) (p : Z * Z) : res (list val) :=
  c <-? basket_chunk d sis b (fst p) (snd p) (tl_etype (lf_t lf)) lf ;; read_chunk (unmarshal t) c.

Lemma zip4_repeat {A B C D} (a : list A) (c : list B) (x : C) (y : D) : length c = length a -> forall n m, (length a <= n)%nat -> (length a <= m)%nat ->
  zip4 a c (repeat x n) (repeat y m) = map (fun p => (fst p, snd p, x, y)) (combine a c).
Proof.
  revert c; induction a as [|a0 a IH]; intros [|c0 c] H n m Hn Hm; cbn [length] in *; try lia; [reflexivity|].
  destruct n; [lia|]. destruct m; [lia|]. cbn [repeat zip4 combine map fst snd]. f_equal. apply IH; lia.
Qed.

Lemma todo_plain d : baskets_todo d sis b =
  Ok (map (fun p => basket_chunk d sis b (fst p) (snd p) (tl_etype (lf_t lf)) lf) (filter (fun p => 0 <? snd p) (own_baskets b))).
Proof using NE OL LE.
  unfold baskets_todo, embedded_todo. rewrite NE. 
  assert (S : exists n, sizes_for b = Ok (repeat (tl_etype (lf_t lf)) n) /\ (length (b_seek (br_core b)) <= n)%nat).
  { unfold sizes_for. rewrite OL. cbn [map length]. destruct (Nat.eqb_spec 1 (length (b_seek (br_core b)))) as [E|E].
    - exists 1%nat. rewrite <- E. auto.
    - cbn [app]. exists (S (length (b_seek (br_core b)) - 1)). cbn [repeat]. split; [reflexivity|lia]. }
  assert (S' : exists n, leaves_for b = Ok (repeat lf n) /\ (length (b_seek (br_core b)) <= n)%nat).
  { unfold leaves_for. rewrite OL. eexists. split; [reflexivity|lia]. }
  destruct S as (n & -> & Hn). destruct S' as (m & -> & Hm). cbn [rbind app]. rewrite zip4_repeat by assumption.
  f_equal. unfold own_baskets. induction (combine (b_seek (br_core b)) (b_bytes (br_core b))) as [|p l IH]; [reflexivity|].
  cbn [map filter]. destruct (0 <? snd p); [cbn [map]; f_equal; exact IH|exact IH].
Qed.

Lemma open_plain d : (forall p, In p (own_baskets b) -> 0 < snd p) ->
  open_iter d sis t b = (name <-? item_type_name sis b ;;
    if existsb (beqb name) (r_classes t) then Ok (mkCursor [] (map (get_one d) (own_baskets b))) else Err ETypeMismatch).
Proof using NS NE OL LE.
  intros PO. unfold open_iter. apply rbind_ext. intros nm. destruct (existsb _ _); [|reflexivity].
  rewrite NS, todo_plain. cbn [rbind]. rewrite map_map. f_equal. f_equal.
  assert (F : filter (fun p => 0 <? snd p) (own_baskets b) = own_baskets b).
  { induction (own_baskets b) as [|p l IH]; [reflexivity|]. cbn [filter]. rewrite (proj2 (Z.ltb_lt 0 (snd p))) by (apply PO; now left).
    f_equal. apply IH. intros q Hq. apply PO. now right. }
  rewrite F. reflexivity.
Qed.
End Plain.

Lemma get_one_only {L : decoders} sis t b lf d s n q : get_one sis t (only_basket s n b) lf d q = get_one sis t b lf d q.
Proof. destruct b. reflexivity. Qed.

Lemma get_one_back {L : decoders} sis t b lf d s n vs : br_subs b = [] -> br_baskets b = [] -> br_leaves b = [lf] -> 0 < n ->
  as_iter d sis t (only_basket s n b) = Ok vs -> get_one sis t b lf d (s, n) = Ok vs.
Proof.
  intros NS NE OL N H. destruct b as [top c e subs ls bks]. cbn [br_subs br_baskets br_leaves] in NS, NE, OL. subst.
  set (b := Br top c e [] [lf] []) in *. 
  apply as_iter_open in H as (parts & H & <-); [|reflexivity].
  rewrite (open_plain sis t (only_basket s n b) lf eq_refl eq_refl eq_refl eq_refl d) in H.
  - apply rbind_inv in H as (nm & _ & H). destruct (existsb _ _); [|discriminate].
    change (own_baskets (only_basket s n b)) with [(s, n)] in H. cbn [map] in H. rewrite get_one_only in H.
    destruct (get_one sis t b lf d (s, n)) as [x|?| | |].
    + destruct parts as [|p [|]]; try discriminate. injection H as ->. cbn [concat]. now rewrite app_nil_r.
    + destruct parts; discriminate.
    + destruct parts; discriminate.
    + destruct parts; discriminate.
    + destruct parts; discriminate.
  - change (own_baskets (only_basket s n b)) with [(s, n)]. intros p [<-|[]]. exact N.
Qed.

(** As long as the first [j] baskets are in place their values are handed out. *)
Lemma lazily {L : decoders} sis t b lf d d' parts j : br_subs b = [] -> br_baskets b = [] -> br_leaves b = [lf] ->
  length (b_bytes (br_core b)) = length (b_seek (br_core b)) -> (forall p, In p (own_baskets b) -> 0 < snd p) ->
  as_iter d sis t b = Ok (concat parts) ->
  Forall2 (fun sl vs => as_iter d sis t (only_basket (fst sl) (snd sl) b) = Ok vs) (own_baskets b) parts ->
  (forall p, In p (firstn j (own_baskets b)) -> kept d d' (fst p) (snd p)) ->
  exists cu, open_iter d' sis t b = Ok cu /\ forall n, (n <= length (concat (firstn j parts)))%nat ->
    exists cu', take n cu = Ok (firstn n (concat parts), cu').
Proof.
  intros NS NE OL LE PO H F K.
  apply as_iter_open in H as (ps & H & _); [|exact NS].
  rewrite (open_plain sis t b lf NS NE OL LE d PO) in H. 
  assert (E : open_iter d' sis t b = Ok (mkCursor [] (map (get_one sis t b lf d') (own_baskets b)))).
  { rewrite (open_plain sis t b lf NS NE OL LE d' PO). apply rbind_inv in H as (nm & -> & H). cbn [rbind]. destruct (existsb _ _); [reflexivity|discriminate]. }
  eexists. split; [exact E|]. clear H E.
  assert (M : exists rest, map (get_one sis t b lf d') (own_baskets b) = map Ok (firstn j parts) ++ rest).
  { clear LE. revert j K PO. induction F as [|p vs l parts X F IH]; intros j K PO; [exists []; now destruct j|].
    destruct j as [|j]; [eexists; reflexivity|]. cbn [firstn map app]. destruct (IH j) as (rest & R).
    - intros q Q. apply K. now right.
    - intros q Q. apply PO. now right.
    - exists rest. rewrite R. f_equal. destruct p as [s n]. cbn [fst snd] in X.
      rewrite <- (get_one_back sis t b lf d s n vs NS NE OL (PO (s, n) (or_introl eq_refl)) X).
      unfold get_one. cbn [fst snd]. rewrite (chunk_same d d' sis b s n _ lf (K (s, n) (or_introl eq_refl))). reflexivity. }
  destruct M as (rest & M). rewrite M. intros n HN.
  assert (EC : firstn n (concat parts) = firstn n (concat (firstn j parts))).
  { rewrite <- (firstn_skipn j parts) at 1. rewrite concat_app, firstn_app. replace (n - length (concat (firstn j parts)))%nat with 0%nat by lia. now rewrite app_nil_r. }
  rewrite EC. exact (take_prefix (firstn j parts) n [] rest HN).
Qed.

Lemma F2_in_r {A B} (R : A -> B -> Prop) l m : Forall2 R l m -> forall b, In b m -> exists a, In a l /\ R a b.
Proof.
  induction 1 as [|a b l m H _ IH]; intros x [].
  - subst x. exists a. split; [now left|exact H].
  - destruct (IH x) as (a' & I & R'); [assumption|]. exists a'. split; [now right|exact R'].
Qed.
Lemma F2_in_both {A B} (R Q : A -> B -> Prop) l m : (forall a b, In a l -> In b m -> R a b -> Q a b) -> Forall2 R l m -> Forall2 Q l m.
Proof.
  intros H F. induction F as [|a b l m X _ IH]; constructor; [apply H; [now left|now left|exact X]|].
  apply IH. intros. apply H; [now right|now right|assumption].
Qed.
Lemma best_key_in r : forall k, In (best_key k r) (k :: r).
Proof.
  induction r as [|x r IH]; intros k; cbn [best_key]; [now left|].
  destruct (IH (if k_cycle k <=? k_cycle x then x else k)) as [E|I]; [|right; now right].
  rewrite <- E. destruct (_ <=? _); [right; now left|now left].
Qed.

Lemma open_front {L : decoders} d sis t b cu : open_iter d sis t b = Ok cu -> cu_front cu = [].
Proof.
  unfold open_iter. intros H. apply rbind_inv in H as (nm & _ & H). destruct (existsb _ _); [|discriminate].
  destruct (br_subs b); [|discriminate]. apply rbind_inv in H as (todo & _ & H). injection H as <-. reflexivity.
Qed.

Lemma step_by_step {L : decoders} d sis t b l : br_subs b = [] ->
  (as_iter d sis t b = Ok l <-> exists cu, open_iter d sis t b = Ok cu /\ forall n, exists cu', take n cu = Ok (firstn n l, cu')).
Proof.
  intros NS. rewrite (as_iter_open sis t b NS d l). split.
  - intros (parts & E & <-). exists (mkCursor [] (map Ok parts)). split; [exact E|]. intros n.
    destruct (Nat.le_gt_cases n (length (concat parts))) as [H|H].
    + destruct (take_prefix parts n [] [] H) as (c' & Q). rewrite app_nil_r in Q. exists c'. exact Q.
    + exists (mkCursor [] []). rewrite firstn_all2 by lia. exact (take_all parts n [] H).
  - intros (cu & E & T). destruct (T (S (length l))) as (cu' & Q). rewrite firstn_all2 in Q by lia.
    destruct (take_ended _ _ _ _ Q) as (parts & Q1 & Q2); [lia|]. exists parts. pose proof (open_front _ _ _ _ _ E) as FR.
    split; [|now rewrite FR in Q2]. rewrite E. f_equal. destruct cu as [fr td]. cbn [cu_front cu_todo] in *. now subst.
Qed.

Lemma splice_damaged d x p : 0 <= p -> p + zlen x <= zlen d ->
  damaged_at d (firstn (Z.to_nat p) d ++ x ++ skipn (Z.to_nat (p + zlen x)) d) p (zlen x).
Proof.
  rewrite !zlen_def. intros H0 H1. assert (IN : Z.of_nat (Z.to_nat p) = p) by lia. revert IN. generalize (Z.to_nat p). intros n IN. assert (EN : Z.to_nat (p + Z.of_nat (length x)) = (n + length x)%nat) by lia. rewrite EN. split.
  - rewrite !zlen_def, !app_length, firstn_length, skipn_length. lia.
  - intros i Hi NI. assert (IJ : Z.of_nat (Z.to_nat i) = i) by (apply Z2Nat.id; exact Hi). revert IJ. generalize (Z.to_nat i). intros j IJ. destruct (Nat.lt_ge_cases j n) as [H|H].
    + rewrite nth_error_app1 by (rewrite firstn_length; lia). rewrite <- (firstn_skipn n d) at 1. now rewrite nth_error_app1 by (rewrite firstn_length; lia).
    + assert (J : (n + length x <= j)%nat) by lia. rewrite nth_error_app2 by (rewrite firstn_length; lia). rewrite firstn_length, Nat.min_l, nth_error_app2 by lia.
      rewrite <- (firstn_skipn (n + length x) d) at 1. rewrite nth_error_app2 by (rewrite firstn_length; lia). f_equal. rewrite firstn_length, Nat.min_l by lia. lia.
Qed.
Lemma damaged_apart d d' p n s m : damaged_at d d' p n -> 0 <= s -> s + m <= p \/ p + n <= s -> untouched d d' s m.
Proof. intros (_ & D) H0 H i Hi. apply D; lia. Qed.
