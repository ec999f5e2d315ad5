(** Type names: decimal numbers, the dimension in a title, which type a column can
    be read as. *)
From Verif Require Export ColBack.

(** ** Decimal numbers *)
Lemma undec_snoc s c : undec (s ++ [c]) = 10 * undec s + (c - 48).
Proof. unfold undec. now rewrite fold_left_app. Qed.

Lemma dec_digits_ok fuel : forall z, 0 <= z < 10 ^ Z.of_nat fuel -> (0 < fuel)%nat ->
  undec (dec_digits fuel z) = z /\ forallb is_digit (dec_digits fuel z) = true /\
  (exists d r, dec_digits fuel z = d :: r /\ (0 < z -> d <> 48)).
Proof.
  induction fuel as [|fuel IH]; intros z H HF; [lia|]. cbn [dec_digits].
  destruct (Z.ltb_spec z 10) as [L|L].
  - split; [change (undec [48 + z]) with (10 * 0 + (48 + z - 48)); lia|]. split; [change (is_digit (48 + z) && true = true); unfold is_digit; lia|].
    exists (48 + z), []. split; [reflexivity|lia].
  - rewrite Nat2Z.inj_succ, Z.pow_succ_r in H by lia.
    assert (Hf : (0 < fuel)%nat).
    { destruct fuel; [change (10 ^ Z.of_nat 0) with 1 in H; lia|lia]. }
    assert (HQ : 0 <= z / 10 < 10 ^ Z.of_nat fuel).
    { split; [apply Z.div_pos; lia|apply Z.div_lt_upper_bound; lia]. }
    destruct (IH (z / 10) HQ Hf) as (U & F & d & r & E & Hd).
    pose proof (Z.mod_pos_bound z 10 ltac:(lia)) as HM. pose proof (Z.div_mod z 10 ltac:(lia)) as DM.
    split; [rewrite undec_snoc, U; lia|]. split.
    + rewrite forallb_app, F. change (is_digit (48 + z mod 10) && true = true). unfold is_digit; lia.
    + exists d, (r ++ [48 + z mod 10]). rewrite E. split; [reflexivity|]. intros _. apply Hd.
      apply Z.div_str_pos. lia.
Qed.

Lemma dec_ok z : 0 <= z ->
  undec (dec z) = z /\ forallb is_digit (dec z) = true /\ (exists d r, dec z = d :: r /\ (0 < z -> d <> 48)).
Proof.
  intros H. unfold dec. apply dec_digits_ok; [|lia]. split; [exact H|].
  rewrite Nat2Z.inj_succ, Z2Nat.id by apply Z.log2_nonneg.
  destruct (Z.eq_dec z 0) as [->|Hz]; [reflexivity|].
  destruct (Z.log2_spec z ltac:(lia)) as [_ L]. eapply Z.lt_le_trans; [exact L|].
  apply Z.pow_le_mono_l. lia.
Qed.

Lemma dec_inj a b : 0 <= a -> 0 <= b -> dec a = dec b -> a = b.
Proof. intros Ha Hb H. destruct (dec_ok a Ha) as (U & _). destruct (dec_ok b Hb) as (V & _). congruence. Qed.

(** ** Titles *)
Definition no_brackets (s : bytes) : Prop := forallb (fun c => negb (is_bracket c)) s = true.

Lemma span_all p s t : forallb p s = true -> (match t with [] => True | c :: _ => p c = false end) -> span p (s ++ t) = (s, t).
Proof.
  intros H HT. induction s as [|c s IH]; cbn [app].
  - destruct t as [|c t]; [reflexivity|]. cbn [span]. now rewrite HT.
  - cbn [forallb] in H. apply andb_true_iff in H as [H1 H2]. cbn [span]. rewrite H1, IH by exact H2. reflexivity.
Qed.

Lemma title_dim_plain s : no_brackets s -> title_dim s = Ok None.
Proof.
  intros H. unfold title_dim, has_dims. pose proof (span_all _ s [] H I) as E. rewrite app_nil_r in E. rewrite E. reflexivity.
Qed.

Lemma digit_no_bracket s : forallb is_digit s = true -> forallb (fun c => negb (is_bracket c)) s = true.
Proof.
  intros H. rewrite forallb_forall in *. intros c Hc. specialize (H c Hc). unfold is_digit, is_bracket in *. lia.
Qed.

Lemma title_dim_array s n : no_brackets s -> 0 < n < 2147483648 -> title_dim (s ++ bs "[" ++ dec n ++ bs "]") = Ok (Some n).
Proof.
  intros H Hn. destruct (dec_ok n ltac:(lia)) as (U & F & d & r & E & Hd). change (bs "[") with [91]. change (bs "]") with [93].
  unfold title_dim.
  assert (HD : has_dims (s ++ [91] ++ dec n ++ [93]) = true).
  { unfold has_dims. rewrite (span_all _ s ([91] ++ dec n ++ [93]) H) by reflexivity. cbn [snd app].
    rewrite (span_all _ (dec n) [93] (digit_no_bracket _ F)) by reflexivity. rewrite E. reflexivity. }
  rewrite HD.
  assert (HI : item_dim (s ++ [91] ++ dec n ++ [93]) = Some (dec n)).
  { clear HD. induction s as [|c s IH]; cbn [app item_dim].
    - rewrite (span_all _ (dec n) [93] F) by reflexivity. rewrite E. change (91 =? 91) with true. cbv iota.
      destruct (Z.eqb_spec d 48) as [->|_]; [|reflexivity]. exfalso. apply Hd; lia.
    - unfold no_brackets in H. cbn [forallb] in H. apply andb_true_iff in H as [H1 H2].
      destruct (Z.eqb_spec c 91) as [->|_]; [discriminate|]. cbn [app] in IH. now apply IH. }
  rewrite HI, U. destruct (Z.ltb_spec n 2147483648); [reflexivity|lia].
Qed.

(** ** Class names are unambiguous *)
Lemma rev_inj {A} (a b : list A) : rev a = rev b -> a = b.
Proof. intros H. rewrite <- (rev_involutive a), <- (rev_involutive b). now f_equal. Qed.

Lemma span_digits_inj a b x y : forallb is_digit a = true -> forallb is_digit b = true ->
  a ++ 91 :: x = b ++ 91 :: y -> a = b /\ x = y.
Proof.
  intros Ha Hb H. pose proof (span_all _ a (91 :: x) Ha eq_refl) as E1. rewrite H, (span_all _ b (91 :: y) Hb eq_refl) in E1.
  injection E1 as -> ->. auto.
Qed.

Lemma arr_name_inj c c' a b : 0 <= a -> 0 <= b ->
  c ++ bs "[" ++ dec a ++ bs "]" = c' ++ bs "[" ++ dec b ++ bs "]" -> c = c' /\ a = b.
Proof.
  intros Ha Hb H. apply (f_equal (@rev Z)) in H. rewrite !rev_app_distr in H. change (rev (bs "]")) with [93] in H.
  change (rev (bs "[")) with [91] in H. rewrite <- !app_assoc in H. cbn [app] in H. injection H as H.
  destruct (dec_ok a Ha) as (_ & F & _). destruct (dec_ok b Hb) as (_ & G & _).
  assert (RF : forall s, forallb is_digit s = true -> forallb is_digit (rev s) = true).
  { intros s Hs. rewrite forallb_forall in *. intros x Hx. apply Hs. now apply in_rev. }
  apply span_digits_inj in H as [H1 H2]; [|now apply RF..].
  apply rev_inj in H1, H2. split; [exact H2|]. now apply dec_inj.
Qed.

Definition last_byte (s : bytes) : Z := last s 0.
Lemma last_snoc s c : last_byte (s ++ [c]) = c.
Proof. apply last_last. Qed.

Lemma class_last t c : In c (r_classes t) ->
  match t with
  | TVec _ => last_byte c = 62
  | TArr _ _ => last_byte c = 93
  | _ => last_byte c <> 62 /\ last_byte c <> 93
  end.
Proof.
  destruct t as [p| |t|n t]; cbn [r_classes].
  - intros [<-|[]]. destruct p; (split; vm_compute; discriminate).
  - intros [<-|[<-|[<-|[]]]]; (split; vm_compute; discriminate).
  - intros H. apply in_map_iff in H as (x & <- & _). rewrite app_assoc. apply last_snoc.
  - intros H. apply in_map_iff in H as (x & <- & _). rewrite !app_assoc. apply last_snoc.
Qed.

Lemma classes_disjoint t : forall t' c, In c (r_classes t) -> In c (r_classes t') -> t = t'.
Proof.
  induction t as [p| |t IH|n t IH]; intros t' c H H'; pose proof (class_last _ _ H) as L; pose proof (class_last _ _ H') as L';
    destruct t' as [p'| |t'|n' t']; cbv beta iota in L, L'; try (exfalso; lia).
  - cbn [r_classes] in H, H'. destruct H as [<-|[]]. destruct H' as [H'|[]]. destruct p, p'; (reflexivity || discriminate H').
  - exfalso. cbn [r_classes In] in H, H'. destruct H as [<-|[]]. destruct p; destruct H' as [H'|[H'|[H'|[]]]]; discriminate H'.
  - exfalso. cbn [r_classes In] in H, H'. destruct H' as [<-|[]]. destruct p'; destruct H as [H|[H|[H|[]]]]; discriminate H.
  - reflexivity.
  - cbn [r_classes] in H, H'. apply in_map_iff in H as (x & E & Hx). apply in_map_iff in H' as (y & E' & Hy).
    rewrite <- E in E'. apply app_inv_head in E'. apply app_inv_tail in E'. subst y. f_equal. eapply IH; eauto.
  - cbn [r_classes] in H, H'. apply in_map_iff in H as (x & E & Hx). apply in_map_iff in H' as (y & E' & Hy).
    rewrite <- E in E'. apply arr_name_inj in E' as [-> E']; [|lia..]. apply Nat2Z.inj in E' as ->. f_equal. eapply IH; eauto.
Qed.

(** ** The name of a written column's type *)
Definition col_type_name (t : ty) : bytes :=
  match t with
  | TPrim p => prim_name p
  | TString => bs "char*"
  | TVec (TPrim p) => bs "vector<" ++ prim_name p ++ bs ">"
  | TArr n (TPrim p) => prim_name p ++ bs "[" ++ dec (Z.of_nat n) ++ bs "]"
  | _ => []
  end.
Lemma col_type_class t : col_ty t -> In (col_type_name t) (r_classes t).
Proof.
  destruct t as [p| |t|n t]; cbn [col_type_name r_classes col_ty]; intros H; [now left|right; now left| |];
    destruct t; try contradiction; now left.
Qed.

Lemma prim_leaf_name p l : lf_kind l = fst (prim_leaf p) -> tl_unsigned (lf_t l) = snd (prim_leaf p) ->
  leaf_type_name l = Some (prim_name p).
Proof. unfold leaf_type_name. intros -> ->. destruct p; reflexivity. Qed.

(** The name of the type of a column called [name], as the reader works it out: it looks for
    a dimension in the title of the leaf. *)
Definition named_type (name : bytes) (t : ty) : res bytes :=
  match t with
  | TPrim p => dim <-? title_dim name ;; Ok (with_dim (prim_name p) dim)
  | TString => dim <-? title_dim name ;; Ok (with_dim (bs "char*") dim)
  | TVec (TPrim p) => dim <-? title_dim name ;; Ok (bs "vector<" ++ prim_name p ++ bs ">")
  | TArr n (TPrim p) => dim <-? title_dim (name ++ bs "[" ++ dec (Z.of_nat n) ++ bs "]") ;; Ok (with_dim (prim_name p) dim)
  | _ => Panic
  end.
Lemma named_type_plain name t : col_ty t -> no_brackets name -> named_type name t = Ok (col_type_name t).
Proof.
  intros C NB. destruct t as [p| |t|n t]; cbn [named_type col_type_name]; try (now rewrite title_dim_plain by exact NB);
    destruct t as [p| | |]; cbn [col_ty] in C; try contradiction.
  - now rewrite title_dim_plain by exact NB.
  - rewrite title_dim_array by (auto; lia). cbn [rbind with_dim]. destruct (Z.ltb_spec 0 (Z.of_nat n)); [reflexivity|lia].
Qed.

Lemma item_type_named sis name t c : col_ty t -> sis_for sis t ->
  wc_elem c = elem_for t -> leaf_st name t (wc_leaf c) ->
  item_type_name sis (col_branch c) = named_type name t.
Proof.
  intros C SI HE HL. unfold item_type_name, col_branch. cbn [br_elem br_subs br_leaves]. rewrite HE.
  destruct t as [p| |t|n t]; cbn [elem_for named_type].
  - cbn [leaf_st leaf_new] in HL. destruct (prim_leaf p) as [k u] eqn:EP. injection HL as <-.
    unfold base_type_name. cbn [br_leaves leaf_seen lf_t tleaf_seen tl_named named_seen n_title new_named lf_kind lf_a lf_b tl_len tl_etype tl_offset tl_hasrange tl_unsigned].
    rewrite (prim_leaf_name p) by (rewrite EP; reflexivity). reflexivity.
  - destruct HL as (len & b & _ & _ & ->). unfold base_type_name. cbn [br_leaves leaf_seen lf_t tleaf_seen tl_named named_seen n_title new_named].
    reflexivity.
  - destruct t as [p| | |]; cbn [col_ty] in C; try contradiction. rewrite vec_class by exact C. cbn [option_map].
    injection HL as <-. cbn [leaf_seen lf_t tleaf_seen tl_named named_seen n_title new_named lf_kind lf_b].
    destruct (title_dim name) as [dim| | | |]; [|reflexivity..]. cbn [rbind leaf_type_name lf_kind]. change (from_leaftype (-1)) with (@None bytes). cbv iota.
    set (e := mkBE _ _ _ _ _ _ _ _ _). set (cl := bs "vector<" ++ prim_name p ++ bs ">") in *.
    change (be_stype e =? 65) with false. change (be_stype e =? 300) with false. change (be_stype e =? -1) with true. cbn [orb].
    destruct (vec_class_facts p C) as (CT & _). fold cl in CT.
    match goal with |- context [br_streamer sis ?b e] =>
      destruct (br_streamer_vec sis p b cl C SI eq_refl e eq_refl) as [-> |(el & x & y & -> & EE)] end.
    + exact CT.
    + cbn [s_elem]. rewrite EE. exact CT.
  - destruct t as [p| | |]; cbn [col_ty] in C; try contradiction. cbn [leaf_st leaf_new] in HL.
    rewrite to_i32_id in HL by (red; lia). destruct (Z.eqb_spec (Z.of_nat n) 0); [lia|].
    destruct (prim_leaf p) as [k u] eqn:EP. destruct (Z.ltb_spec (Z.of_nat n) 0); [lia|]. injection HL as <-.
    unfold base_type_name. cbn [br_leaves leaf_seen lf_t tleaf_seen tl_named named_seen n_title new_named lf_kind lf_a lf_b tl_len tl_etype tl_offset tl_hasrange tl_unsigned].
    change (91 :: dec (Z.of_nat n) ++ bs "]") with (bs "[" ++ dec (Z.of_nat n) ++ bs "]").
    rewrite (prim_leaf_name p) by (rewrite EP; reflexivity). reflexivity.
Qed.

Lemma item_type_written sis name t c : col_ty t -> no_brackets name -> sis_for sis t ->
  wc_elem c = elem_for t -> leaf_st name t (wc_leaf c) ->
  item_type_name sis (col_branch c) = Ok (col_type_name t).
Proof. intros C NB SI HE HL. rewrite (item_type_named sis name t c C SI HE HL). now apply named_type_plain. Qed.

(** ** Reading a written column *)
Section Col.
Variables (D : bytes) (sis : list sinfo) (path name tn : bytes) (t : ty) (recs : list bytes) (c : wcol) (ds : list wdone).
Hypotheses (C : col_ty t) (N : names_ok name tn (bs "TBasket")) (P : path_ok path) (NB : no_brackets name)
  (SG : seg D (E0 path) (concat recs)) (HD : zlen D < 2 ^ 63) (SI : sis_for sis t)
  (CC : col_core path name tn t recs ds (zlen (d_all ds)) c).

Lemma as_iter_back : zlen ds <= 32767 -> (1 <= length ds)%nat ->
  as_iter D sis t (col_branch c) = res_map (eread t) (d_all ds).
Proof using All.
  intros HL H1. unfold as_iter. destruct CC as (HT & HE & HLf & _).
  rewrite (item_type_written sis name t c C NB SI HE HLf). cbn [rbind].
  assert (X : existsb (beqb (col_type_name t)) (r_classes t) = true).
  { apply existsb_exists. exists (col_type_name t). split; [now apply col_type_class|apply beqb_refl]. }
  rewrite X. now apply get_basket_back with (path := path) (name := name) (tn := tn) (recs := recs).
Qed.

Lemma only_type seek len b : item_type_name sis (col_only seek len b) = item_type_name sis b.
Proof using Type. now destruct b. Qed.

Lemma as_iter_only a d b : ds = a ++ d :: b -> zlen ds <= 32767 ->
  as_iter D sis t (col_only (d_seek d) (d_nbytes name tn t d) (col_branch c)) = res_map (eread t) (d_vals d).
Proof using All.
  intros E HL. unfold as_iter. rewrite only_type. rewrite E in *. pose proof CC as (HT & HE & HLf & _).
  rewrite (item_type_written sis name t c C NB SI HE HLf). cbn [rbind].
  assert (X : existsb (beqb (col_type_name t)) (r_classes t) = true).
  { apply existsb_exists. exists (col_type_name t). split; [now apply col_type_class|apply beqb_refl]. }
  rewrite X. eapply only_back with (path := path) (recs := recs) (a := a) (b := b); eauto.
Qed.

Lemma as_iter_other t' : t' <> t -> as_iter D sis t' (col_branch c) = Err ETypeMismatch.
Proof using C NB SI CC.
  intros H. unfold as_iter. destruct CC as (HT & HE & HLf & _).
  rewrite (item_type_written sis name t c C NB SI HE HLf). cbn [rbind].
  destruct (existsb _ _) eqn:X; [|reflexivity]. exfalso. apply existsb_exists in X as (x & Hx & E).
  apply beqb_eq in E. subst x. apply H. eapply classes_disjoint; [exact Hx|now apply col_type_class].
Qed.
End Col.
