(** Writing baskets and columns: what reaches the file. *)
From Verif Require Export ColRead FileMono.

(** ** Writes only accumulate *)
Lemma mono_basket_write wb : mono (basket_write wb). Proof. unfold basket_write. mono. Qed.
#[export] Hint Resolve mono_basket_write : mono.
Lemma mono_create_new_basket tn c : mono (create_new_basket tn c). Proof. unfold create_new_basket. mono. Qed.
Lemma mono_flush c : mono (flush c). Proof. unfold flush. mono. Qed.
#[export] Hint Resolve mono_create_new_basket mono_flush : mono.
Lemma mono_write_entry tn c wb v : mono (write_entry tn c wb v). Proof. unfold write_entry. mono. Qed.
#[export] Hint Resolve mono_write_entry : mono.
Lemma mono_wcol_write tn c : mono (wcol_write tn c). Proof. unfold wcol_write. mono. Qed.
#[export] Hint Resolve mono_wcol_write : mono.
Lemma mono_write_row tn n l t : mono (write_row tn n l t).
Proof. revert t; induction l as [|[c d] l IH]; intros t; cbn [write_row]; mono. Qed.
#[export] Hint Resolve mono_write_row : mono.
Lemma mono_write_rows fuel tn n t l ev : mono (write_rows fuel tn n t l ev).
Proof. revert t l ev; induction fuel as [|fuel IH]; intros; cbn [write_rows]; mono. Qed.
#[export] Hint Resolve mono_write_rows : mono.
Lemma mono_flush_all l : mono (flush_all l).
Proof. induction l as [|c l IH]; cbn [flush_all]; mono. Qed.
#[export] Hint Resolve mono_flush_all : mono.
Lemma mono_tree_close db t l s : mono (tree_close db t l s). Proof. unfold tree_close. mono. Qed.
#[export] Hint Resolve mono_tree_close : mono.
Lemma mono_tree_write db t : mono (tree_write db t). Proof. unfold tree_write. mono. Qed.
#[export] Hint Resolve mono_tree_write : mono.

(** ** Entries *)

(** Bytes of one entry of a column: vectors carry a header. *)
Definition ent (t : ty) (v : val) : bytes :=
  match t with
  | TVec _ => be 4 (Z.lor (zlen (enc t v) + 2) kByteCountMask) ++ be 2 9 ++ enc t v
  | _ => enc t v
  end.
Definition ents (t : ty) (vs : list val) : bytes := flat_map (ent t) vs.

(** The leaf written for a type. *)
Definition kind_for (t : ty) : lkind :=
  match t with
  | TPrim p => fst (prim_leaf p)
  | TString => LKC
  | TVec _ => LKElement
  | TArr _ (TPrim p) => fst (prim_leaf p)
  | TArr _ _ => LKBase
  end.

(** Types a column can have. *)
Definition col_ty (t : ty) : Prop :=
  match t with
  | TPrim _ | TString => True
  | TVec (TPrim p) => p <> PBool
  | TVec _ => False
  | TArr n (TPrim _) => 0 < Z.of_nat n < 2147483648
  | TArr _ _ => False
  end.

Lemma is_i32_cast z : is_i32 (to_i32 z).
Proof.
  red. unfold to_i32, wrap_s, sgn, wrap_u.
  pose proof (Z.mod_pos_bound z (256 ^ Z.of_nat 4) ltac:(reflexivity)) as M.
  change (256 ^ Z.of_nat 4) with 4294967296 in *. change (4294967296 / 2) with 2147483648.
  destruct (Z.ltb_spec (z mod 4294967296) 2147483648); lia.
Qed.

(** The leaf of a column through its life: only that of strings changes. *)
Definition leaf_st (name : bytes) (t : ty) (l : leaf) : Prop :=
  match t with
  | TString => exists len b, is_i32 len /\ is_i32 b /\
      l = mkLeaf LKC (mkTL (new_named name name) len 24 0 false false) 0 b
  | _ => leaf_new name t = Ok l
  end.

Lemma leaf_new_st name t l : leaf_new name t = Ok l -> leaf_st name t l.
Proof.
  destruct t; cbn [leaf_st]; auto. intros H. injection H as <-. exists 1, 0. split; [red; lia|split; [red; lia|reflexivity]].
Qed.

Lemma leaf_st_kind name t l : col_ty t -> leaf_st name t l -> lf_kind l = kind_for t.
Proof.
  intros C H. destruct t as [p| |t|n t]; cbn [leaf_st leaf_new kind_for] in *.
  - destruct (prim_leaf p). injection H as <-. reflexivity.
  - destruct H as (? & ? & ? & ? & ->). reflexivity.
  - injection H as <-. reflexivity.
  - destruct t; cbn [col_ty] in C; try contradiction.
    destruct (_ =? 0); [discriminate|]. destruct (prim_leaf p). destruct (_ <? 0); [discriminate|].
    injection H as <-. reflexivity.
Qed.

Lemma leaf_write_ent name l t v s : col_ty t -> leaf_st name t l -> wt t v ->
  exists l', leaf_write l t v s = Ok (l', w_app s (ent t v)) /\ leaf_st name t l'.
Proof.
  intros C L T. pose proof (leaf_st_kind _ _ _ C L) as K. destruct (writes_marshal t v T s) as [[] W].
  unfold leaf_write. rewrite K.
  destruct t as [p| |t|n t].
  - exists l. split; [|exact L]. destruct p; cbn [kind_for prim_leaf fst]; rewrite (bind_Ok _ _ _ _ _ W); reflexivity.
  - cbn [kind_for]. unfold gets. unfold bind at 1. rewrite (bind_Ok _ _ _ _ _ W). unfold bind at 1.
    eexists. split; [unfold ret; reflexivity|].
    destruct L as (len & b & H1 & H2 & ->).
    cbn [lf_kind lf_t tl_named tl_etype tl_offset tl_unsigned tl_hasrange lf_a lf_b tl_len].
    cbn [leaf_st]. eexists _, _. split; [|split; [|reflexivity]]; destruct (_ <=? _); auto using is_i32_cast.
  - destruct (writes_header 9 (marshal (TVec t) v) (enc (TVec t) v) s) as [z Z].
    { destruct (writes_marshal _ _ T (w_app s (be 4 0 ++ be 2 9))) as [x X]. exists x. rewrite X, w_app_app. reflexivity. }
    exists l. cbn [kind_for]. rewrite (bind_Ok _ _ _ _ _ Z). split; [reflexivity|exact L].
  - exists l. split; [|exact L]. destruct t as [p| | |]; cbn [col_ty] in C; try contradiction.
    destruct p; cbn [kind_for prim_leaf fst]; rewrite (bind_Ok _ _ _ _ _ W); reflexivity.
Qed.

Lemma prim_size_pos p : (0 < prim_size p)%nat. Proof. destruct p; cbn; lia. Qed.
Lemma ent_pos t v : col_ty t -> wt t v -> 1 <= zlen (ent t v).
Proof.
  intros C T. destruct t as [p| |t|n t]; destruct v as [z|s|l]; cbn [wt] in T; try contradiction; cbn [ent enc].
  - rewrite zlen_be. pose proof (prim_size_pos p). lia.
  - rewrite (proj2 (writes_str s T)). pose proof (tstring_pos s T); lia.
  - rewrite !zlen_app, !zlen_be. pose proof (zlen_nonneg (flat_map (enc t) l)). lia.
  - destruct t as [p| | |]; cbn [col_ty] in C; try contradiction. destruct T as [<- T].
    destruct l as [|v l]; [cbn in C; lia|]. cbn [flat_map]. rewrite zlen_app.
    inversion T; subst. destruct v; cbn [wt] in *; try contradiction. cbn [enc]. rewrite zlen_be.
    pose proof (prim_size_pos p). match goal with |- context [zlen ?x] => pose proof (zlen_nonneg x) end. lia.
Qed.

Lemma ents_app t a b : ents t (a ++ b) = ents t a ++ ents t b.
Proof. apply flat_map_app. Qed.
Lemma ents_len t vs : col_ty t -> Forall (wt t) vs -> zlen vs <= zlen (ents t vs).
Proof.
  intros C. induction 1 as [|v vs H _ IH]; [cbn [ents flat_map]; rewrite !zlen_def; cbn [length]; lia|].
  cbn [ents flat_map]. rewrite zlen_app, zlen_cons. fold (ents t vs). pose proof (ent_pos t v C H). lia.
Qed.

(** ** Baskets *)

Definition vsize (t : ty) : bool := match t with TString | TVec _ => true | _ => false end.

(** Where entries start. *)
Fixpoint starts (p : Z) (t : ty) (vs : list val) : list Z :=
  match vs with [] => [] | v :: r => p :: starts (p + zlen (ent t v)) t r end.
Lemma starts_snoc p t vs v : starts p t (vs ++ [v]) = starts p t vs ++ [p + zlen (ents t vs)].
Proof.
  revert p; induction vs as [|a vs IH]; intros p; cbn [starts app ents flat_map].
  - now rewrite (@zlen_nil Z), Z.add_0_r.
  - rewrite IH, zlen_app. fold (ents t vs). now rewrite Z.add_assoc.
Qed.
Lemma starts_length p t vs : length (starts p t vs) = length vs.
Proof. revert p; induction vs; intros; cbn; auto. Qed.

Definition bkl (name tn : bytes) : Z := key_len_for name tn (bs "TBasket") false.

(** The basket being filled holds the entries [cur]. *)
Definition binv (name tn : bytes) (t : ty) (cycle : Z) (cur : list val) (wb : wbasket) : Prop :=
  let kl := bkl name tn in
  exists ns offs,
    wb = mkWB (mkBasket (mkKey 4 kl 0 now_ts kl cycle 100 100 (bs "TBasket") name tn []) (zlen cur) 0 ns 32768 offs)
              (w_app (w_new 0) (ents t cur)) /\
    0 <= ns < 2147483648 /\
    if vsize t then offs <> [] /\ zlen cur <= zlen offs /\ firstn (length cur) offs = starts kl t cur else offs = [].

Definition trailer (kl : Z) (t : ty) (vs : list val) : bytes :=
  if vsize t then be 4 (zlen vs + 1) ++ flat_map (be 4) (starts kl t vs) ++ be 4 0 else [].
Definition payload (name tn : bytes) (t : ty) (vs : list val) : bytes :=
  ents t vs ++ trailer (bkl name tn) t vs.
Definition bkey (name tn : bytes) (t : ty) (cycle e : Z) (vs : list val) : key :=
  mk_key name tn (bs "TBasket") cycle e (payload name tn t vs).
Definition bfields (ns n last : Z) : bytes :=
  be 2 3 ++ be 4 32768 ++ be 4 ns ++ be 4 n ++ be 4 last ++ be 1 0.
Definition brec (name tn : bytes) (t : ty) (cycle e ns : Z) (vs : list val) : bytes :=
  (khdr (bkey name tn t cycle e vs) ++ bfields ns (zlen vs) (bkl name tn + zlen (ents t vs))) ++ payload name tn t vs.


Lemma lay_bound path keys sis recs f : path_ok path -> lay path keys sis recs f ->
  zlen (f_disk f) <= kStartBigFile -> E0 path + rsize recs <= kStartBigFile.
Proof.
  intros P (log & -> & L) H. destruct L as [_ L]. unfold f_disk in H. cbn [lay_file f_io] in H. rewrite L in H.
  rewrite zlen_app in H. pose proof (E0_pos path P).
  destruct (hdr0_ok path P) as [H1 H2].
  rewrite base_len in H; [|exact P|exact H1|exact H2|apply (dir0_ok path [] 0 0); [exact P|rt_side|rt_side]|reflexivity].
  destruct recs as [|r recs]; [unfold rsize; cbn [concat]; rewrite (@zlen_nil Z); unfold kStartBigFile; lia|].
  unfold tail in H. rewrite zlen_app, zlen_repeat in H. unfold rsize. lia.
Qed.

Lemma bkl_bounds name tn : names_ok name tn (bs "TBasket") -> 48 <= bkl name tn < 32768.
Proof.
  intros (H1 & H2 & H3 & H4). unfold bkl. split; [|exact H4].
  unfold key_len_for. change (beqb (bs "TBasket") (bs "TBasket")) with true. cbv iota.
  pose proof (tstring_pos _ H1). pose proof (tstring_pos _ H2). pose proof (tstring_pos _ H3). lia.
Qed.

Lemma bfields_len ns n l : zlen (bfields ns n l) = 19.
Proof. unfold bfields. rewrite !zlen_app, !zlen_be. reflexivity. Qed.

Lemma basket_marshal_writes k nev last ns offs h : writes (key_marshal k) h ->
  writes (basket_marshal (mkBasket k nev last ns 32768 offs)) (h ++ bfields ns nev last).
Proof.
  intros H. unfold basket_marshal, bfields. cbn [bk_key bk_bufsize bk_nevsize bk_nevbuf bk_last].
  repeat (apply writes_bind; [first [exact H|apply writes_int]|intros _]). apply writes_int.
Qed.

Lemma bhdr_len name tn t cycle e vs : names_ok name tn (bs "TBasket") ->
  key_hdr_len (bkey name tn t cycle e vs) + 19 = bkl name tn.
Proof.
  intros N. unfold bkey, mk_key, key_hdr_len, bkl, key_len_for.
  cbn [k_rvers k_class k_name k_title]. change (beqb (bs "TBasket") (bs "TBasket")) with true.
  change (1000 <? 4) with false. cbv iota. lia.
Qed.

Lemma basket_marshal_len b : str_ok (k_name (bk_key b)) -> str_ok (k_title (bk_key b)) -> str_ok (k_class (bk_key b)) ->
  wlength (basket_marshal b) (key_hdr_len (bk_key b) + 19).
Proof.
  intros. unfold basket_marshal. replace (key_hdr_len (bk_key b) + 19) with (key_hdr_len (bk_key b) + (2 + (4 + (4 + (4 + (4 + 1)))))) by lia.
  apply wlength_bind; [now apply key_marshal_len|]. intros _.
  apply wlength_bind; [apply (wlength_int 2)|]. intros _.
  apply wlength_bind; [apply (wlength_int 4)|]. intros _.
  apply wlength_bind; [apply (wlength_int 4)|]. intros _.
  apply wlength_bind; [apply (wlength_int 4)|]. intros _.
  apply wlength_bind; [apply (wlength_int 4)|]. intros _. apply (wlength_int 1).
Qed.

Lemma str_ok_basket : str_ok (bs "TBasket").
Proof. split; [rewrite zlen_def; reflexivity|reflexivity]. Qed.

(** The bytes of a basket being written. *)
Lemma basket_buf name tn t cycle cur wb : binv name tn t cycle cur wb ->
  match bk_offsets (wb_basket wb) with
  | [] => Ok (wb_buf wb)
  | _ => if (bk_nevbuf (wb_basket wb) <? 0) || (zlen (bk_offsets (wb_basket wb)) <? bk_nevbuf (wb_basket wb)) then Panic else
         ' (_, s) <-? (write_i32 (bk_nevbuf (wb_basket wb) + 1) ;;;
            iterM write_i32 (firstn (Z.to_nat (bk_nevbuf (wb_basket wb))) (bk_offsets (wb_basket wb))) ;;;
            write_i32 0) (wb_buf wb) ;;
         Ok s
  end = Ok (w_app (w_new 0) (payload name tn t cur)).
Proof.
  intros (ns & offs & -> & NS & O). cbn [wb_basket wb_buf bk_offsets bk_nevbuf].
  unfold payload, trailer. set (kl := bkl name tn) in *. destruct (vsize t).
  - destruct O as (O1 & O2 & O3). destruct offs as [|o offs]; [congruence|].
    pose proof (zlen_nonneg cur). destruct (Z.ltb_spec (zlen cur) 0); [lia|]. destruct (Z.ltb_spec (zlen (o :: offs)) (zlen cur)); [lia|].
    cbn [orb]. replace (Z.to_nat (zlen cur)) with (length cur) by (rewrite zlen_def; lia). rewrite O3.
    assert (W : writes (write_i32 (zlen cur + 1) ;;; iterM write_i32 (starts kl t cur) ;;; write_i32 0)
       (be 4 (zlen cur + 1) ++ flat_map (be 4) (starts kl t cur) ++ be 4 0)).
    { apply writes_bind; [apply writes_int|]. intros _. apply writes_bind; [|intros _; apply writes_int].
      apply writes_iter. intros; apply writes_int. }
    destruct (W (w_app (w_new 0) (ents t cur))) as [x ->]. cbn [rbind]. now rewrite w_app_app.
  - subst offs. now rewrite app_nil_r.
Qed.

Lemma key_from_buffer_small f e n t c cy b : small f e ->
  key_from_buffer n t c cy b f = key_from (key_len_for n t c false) n t c cy b f.
Proof. intros H. rewrite <- (f_keylen_small f e) by exact H. reflexivity. Qed.

(** Everything [basket_write] does after the basket's bytes are known. *)
Lemma basket_bwd path keys sis recs f name tn t cycle cur wb f' k wb' :
  let e := E0 path + rsize recs in
  path_ok path -> lay path keys sis recs f -> e <= kStartBigFile -> names_ok name tn (bs "TBasket") ->
  binv name tn t cycle cur wb ->
  basket_write wb f = (f', Ok (k, wb')) -> zlen (f_disk f') <= kStartBigFile ->
  e + (bkl name tn + zlen (payload name tn t cur)) <= kStartBigFile.
Proof.
  intros e P (log & -> & L) HE N B H HD.
  pose proof (bkl_bounds _ _ N) as HK.
  pose proof (rsize_nonneg recs) as Hr. pose proof (E0_pos path P) as H0.
  assert (SM : small (lay_file path keys sis log e) e) by (apply lay_small; [exact P|unfold e in *; lia]).
  pose proof (basket_buf _ _ _ _ _ _ B) as BB.
  destruct B as (ns & offs & -> & NS & O).
  unfold basket_write in H. cbn [wb_basket wb_buf bk_key bk_offsets bk_nevbuf bk_last bk_nevsize bk_bufsize k_rvers k_keylen k_name k_title k_cycle] in H, BB.
  apply fbind_inv in H as (f1 & ? & H1 & H). apply fgets_inv in H1 as [-> ->].
  fold e in H. rewrite (file_big_small _ e SM), andb_false_r in H.
  apply fbind_inv in H as (f1 & last & H1 & H). apply flift_inv in H1 as [-> H1].
  apply fbind_inv in H as (f1 & buf & H2 & H). apply flift_inv in H2 as [-> HB].
  rewrite BB in HB. injection HB as <-. clear BB.
  apply fbind_inv in H as (f2 & k1 & HKI & H). rewrite (key_from_buffer_small _ e) in HKI by exact SM.
  apply key_from_inv in HKI as (I1 & I2 & I3 & I4 & I5 & I6 & I7 & I8).
  rewrite (file_big_small _ e SM) in I8. cbn in I1. cbn [lay_file f_hdr h_set_end fh_end] in I2.
  apply fbind_inv in H as (f4 & hdr & H2 & H). apply flift_inv in H2 as [-> HH].
  apply fbind_inv in H as (f4 & [] & H2 & H). apply fwrite_inv in H2 as (log1 & E1 & ->).
  apply fbind_inv in H as (f5 & [] & H2 & H). apply fwrite_inv in H2 as (log2 & E2 & ->).
  cbn in E2. injection E2 as <-. injection H as <- _ _.
  rewrite I1 in E1. injection E1 as <-.
  pose proof N as (N1 & N2 & N3 & N4).
  assert (LH : zlen hdr = bkl name tn).
  { transitivity (key_hdr_len k1 + 19).
    - eapply wlength_wrun; [|exact HH]. apply basket_marshal_len; cbn [bk_key]; rewrite ?I5, ?I6, ?I7; assumption.
    - rewrite <- (bhdr_len name tn t cycle e cur N).
      unfold key_hdr_len, bkey, mk_key. cbn [k_rvers k_class k_name k_title]. rewrite I5, I6, I7, I8. reflexivity. }
  unfold f_disk in HD. cbn [f_io f_set_io] in HD. rewrite <- app_assoc in HD. cbn [app] in HD.
  cbn [wp w_app w_set_p w_new app] in I4. unfold bkl in LH.
  rewrite I2, I3, I4 in HD. rewrite <- LH in HD at 1.
  assert (hdr <> []) by (intros ->; rewrite (@zlen_nil Z) in LH; unfold bkl in HK; lia).
  pose proof (disk_two log e hdr (payload name tn t cur) ltac:(unfold e; lia) ltac:(assumption)). unfold bkl. lia.
Qed.

Lemma basket_fwd path keys sis recs f name tn t cycle cur wb :
  let e := E0 path + rsize recs in
  path_ok path -> lay path keys sis recs f -> names_ok name tn (bs "TBasket") -> is_i16 cycle ->
  binv name tn t cycle cur wb ->
  e + (bkl name tn + zlen (payload name tn t cur)) <= kStartBigFile ->
  exists ns f' wb', 0 <= ns < 2147483648 /\
    basket_write wb f = (f', Ok (bkey name tn t cycle e cur, wb')) /\
    lay path keys sis (recs ++ [brec name tn t cycle e ns cur]) f'.
Proof.
  intros e P (log & -> & L) N C B BD.
  pose proof (bkl_bounds _ _ N) as HK.
  pose proof (rsize_nonneg recs) as Hr. pose proof (E0_pos path P) as H0. pose proof (zlen_nonneg (payload name tn t cur)) as Hp.
  assert (SM : small (lay_file path keys sis log e) e) by (apply lay_small; [exact P|unfold e in *; lia]).
  pose proof (basket_buf _ _ _ _ _ _ B) as BB.
  destruct B as (ns & offs & -> & NS & O).
  assert (KO : key_ok (bkey name tn t cycle e cur)) by (apply mk_key_good; auto; unfold e; lia).
  destruct (khdr_ok _ KO) as (LK & _ & WK & RK).
  assert (HZ : 0 <= zlen (ents t cur) < 2147483648).
  { pose proof (zlen_nonneg (ents t cur)). pose proof (zlen_nonneg (trailer (bkl name tn) t cur)).
    unfold payload in BD. rewrite zlen_app in BD. unfold kStartBigFile, e in *. lia. }
  set (hdr := khdr (bkey name tn t cycle e cur) ++ bfields ns (zlen cur) (bkl name tn + zlen (ents t cur))).
  assert (LH : zlen hdr = bkl name tn).
  { unfold hdr. rewrite zlen_app, LK, bfields_len. now apply bhdr_len. }
  exists ns.
  unfold basket_write. cbn [wb_basket wb_buf bk_key bk_offsets bk_nevbuf bk_last bk_nevsize bk_bufsize k_rvers k_keylen k_name k_title k_cycle] in BB |- *.
  cbv zeta.
  unfold fbind at 1, fgets at 1. fold e. rewrite (file_big_small _ e SM), andb_false_r.
  unfold fbind at 1, flift at 1. cbn [wp w_app w_set_p w_new app].
  rewrite (to_i32_id (zlen (ents t cur))) by (red; lia).
  rewrite add_i32_ok by (red; unfold kStartBigFile, payload, e in *; rewrite zlen_app in BD; pose proof (zlen_nonneg (trailer (bkl name tn) t cur)); lia).
  unfold fbind at 1, flift at 1. rewrite BB.
  unfold fbind at 1. rewrite (key_from_buffer_small _ e) by exact SM. cbn [wp w_app w_set_p w_new app].
  rewrite (key_from_small _ e) by (auto; fold (bkl name tn); lia).
  rewrite lay_end. fold (bkl name tn).
  match goal with |- context [k_seek ?x] => change x with (bkey name tn t cycle e cur) end.
  unfold fbind at 1, flift at 1. rewrite (writes_wrun _ _ _ (basket_marshal_writes _ _ _ _ _ _ WK)). fold hdr.
  unfold fbind at 1. unfold fwrite at 1. cbn [lay_file f_io].
  unfold fbind at 1. unfold fwrite at 1. cbn [f_set_io f_io].
  eexists _, _. split; [exact NS|]. split; [reflexivity|].
  eexists. split.
  - unfold f_set_io. cbn [f_io f_hdr f_dir f_spans f_sinfos f_id]. rewrite rsize_snoc. unfold brec. fold hdr. rewrite zlen_app, LH.
    replace (E0 path + (rsize recs + (bkl name tn + zlen (payload name tn t cur))))
      with (e + (bkl name tn + zlen (payload name tn t cur))) by (unfold e; lia).
    reflexivity.
  - rewrite <- app_assoc. cbn [app]. unfold brec. fold hdr.
    pose proof (lay_log_append path recs log hdr (payload name tn t cur) P L) as LA. fold e in LA. rewrite LH in LA. apply LA.
    + intros E. apply (f_equal zlen) in E. rewrite LH, (@zlen_nil Z) in E. lia.
    + exists (khdr (bkey name tn t cycle e cur)), (bfields ns (zlen cur) (bkl name tn + zlen (ents t cur))), (bkey name tn t cycle e cur).
      rewrite LH. split; [reflexivity|]. split; [exact WK|]. split; [exact RK|]. split; [apply bfields_len|].
      split; [reflexivity|]. split; [reflexivity|]. split; reflexivity.
Qed.

(** Writing a basket appends one record. *)
Lemma basket_write_ok path keys sis recs f name tn t cycle cur wb f' k wb' :
  let e := E0 path + rsize recs in
  path_ok path -> lay path keys sis recs f -> names_ok name tn (bs "TBasket") -> is_i16 cycle ->
  binv name tn t cycle cur wb ->
  basket_write wb f = (f', Ok (k, wb')) -> zlen (f_disk f') <= kStartBigFile ->
  exists ns, 0 <= ns < 2147483648 /\ k = bkey name tn t cycle e cur /\
    lay path keys sis (recs ++ [brec name tn t cycle e ns cur]) f' /\
    e + (bkl name tn + zlen (payload name tn t cur)) <= kStartBigFile.
Proof.
  intros e P L N C B H HD.
  assert (HE : e <= kStartBigFile).
  { eapply lay_bound; eauto. pose proof (mono_disk _ _ _ _ (mono_basket_write _) H). lia. }
  pose proof (basket_bwd _ _ _ _ _ _ _ _ _ _ _ _ _ _ P L HE N B H HD) as BD. fold e in BD.
  destruct (basket_fwd _ _ _ _ _ _ _ _ _ _ _ P L N C B BD) as (ns & f1 & wb1 & NS & E & L1).
  rewrite E in H. injection H as <- <- _. exists ns. auto.
Qed.

(** ** Columns *)

(** [r] is the record at [seek]. *)
Definition at_rec (path : bytes) (recs : list bytes) (seek : Z) (r : bytes) : Prop :=
  exists pre post, recs = pre ++ r :: post /\ seek = E0 path + rsize pre.
Lemma at_rec_app path recs m seek r : at_rec path recs seek r -> at_rec path (recs ++ m) seek r.
Proof. intros (pre & post & -> & ->). exists pre, (post ++ m). now rewrite <- app_assoc. Qed.
Lemma at_rec_last path recs r : at_rec path (recs ++ [r]) (E0 path + rsize recs) r.
Proof. exists recs, []. auto. Qed.

(** A basket that was written. *)
Record wdone := mkD { d_seek : Z; d_ns : Z; d_vals : list val }.

Definition eol_for (t : ty) : Z := if vsize t then 1000 else 0.
Definition elem_for (t : ty) : option belem :=
  match t with
  | TVec t' => option_map (fun c => mkBE c [] [] 0 0 (-1) 0 (-1) 0) (w_class t)
  | _ => None
  end.
Definition ccore (name : bytes) (t : ty) (wb n maxb tot : Z) (bytes entry seek : list Z) : bcore :=
  mkBC (new_named name (name ++ bs "/" ++ root_code t)) attfill_default 0 32768 (eol_for t) wb n 0 0 maxb 0 n 0 tot tot
    bytes entry seek [].

Definition d_all (ds : list wdone) : list val := flat_map d_vals ds.
(** The number of entries before each basket and in total. *)
Definition d_entry (ds : list wdone) : list Z := map (fun k => zlen (d_all (firstn k ds))) (seq 0 (S (length ds))).
Lemma d_entry_len ds : zlen (d_entry ds) = zlen ds + 1.
Proof. unfold d_entry. rewrite !zlen_def, map_length, seq_length. lia. Qed.
Lemma d_entry_snoc ds d : d_entry (ds ++ [d]) = d_entry ds ++ [zlen (d_all (ds ++ [d]))].
Proof.
  unfold d_entry. rewrite app_length, Nat.add_1_r, seq_S, map_app. cbn [map length Nat.add]. f_equal.
  - apply map_ext_in. intros k K. apply in_seq in K. rewrite firstn_app. replace (k - length ds)%nat with 0%nat by lia.
    cbn [firstn]. now rewrite app_nil_r.
  - rewrite firstn_all2; [reflexivity|]. rewrite app_length. cbn. lia.
Qed.

Section Col.
Variables (path name tn : bytes) (t : ty).

Definition d_nbytes (d : wdone) : Z := bkl name tn + zlen (payload name tn t (d_vals d)).
Fixpoint dones_ok (recs : list bytes) (i : Z) (ds : list wdone) : Prop :=
  match ds with
  | [] => True
  | d :: r =>
      at_rec path recs (d_seek d) (brec name tn t (i + 1) (d_seek d) (d_ns d) (d_vals d)) /\
      0 <= d_ns d < 2147483648 /\ d_seek d + d_nbytes d <= kStartBigFile /\ Forall (wt t) (d_vals d) /\
      dones_ok recs (i + 1) r
  end.

Lemma dones_ok_app recs m i ds : dones_ok recs i ds -> dones_ok (recs ++ m) i ds.
Proof.
  revert i; induction ds as [|d ds IH]; intros i; cbn [dones_ok]; auto.
  intros (H1 & H2 & H3 & H4 & H5). repeat split; auto using at_rec_app; lia.
Qed.
Lemma dones_ok_snoc recs i ds d : dones_ok recs i ds -> dones_ok recs (i + zlen ds) [d] -> dones_ok recs i (ds ++ [d]).
Proof.
  revert i; induction ds as [|a ds IH]; intros i A H.
  - rewrite zlen_nil, Z.add_0_r in H. exact H.
  - rewrite zlen_cons in H. destruct A as (H1 & H2 & H3 & H4 & H5). change ((a :: ds) ++ [d]) with (a :: (ds ++ [d])).
    split; [exact H1|]. split; [exact H2|]. split; [exact H3|]. split; [exact H4|]. apply IH; [exact H5|].
    replace (i + 1 + zlen ds) with (i + (1 + zlen ds)) by lia. exact H.
Qed.

(** The column after the baskets [ds], with [n] entries so far. *)
Definition col_core (recs : list bytes) (ds : list wdone) (n : Z) (c : wcol) : Prop :=
  wc_ty c = t /\ wc_elem c = elem_for t /\ leaf_st name t (wc_leaf c) /\
  (exists maxb tot entry,
     wc_core c = ccore name t (zlen ds) n maxb tot (map d_nbytes ds) entry (map d_seek ds) /\
     entry = d_entry ds /\ Forall (fun z => 0 <= z <= n) entry /\ 0 <= tot <= rsize recs) /\
  dones_ok recs 0 ds /\ zlen (d_all ds) <= rsize recs.

(** ... and the open basket [cur]. *)
Definition col_gen (recs : list bytes) (ds : list wdone) (cur : list val) (c : wcol) : Prop :=
  col_core recs ds (zlen (d_all ds) + zlen cur) c /\ zlen ds <= 32766 /\ Forall (wt t) cur /\
  exists wb, wc_basket c = Some wb /\ binv name tn t (zlen ds + 1) cur wb.

Lemma col_core_app recs m ds n c : col_core recs ds n c -> col_core (recs ++ m) ds n c.
Proof.
  intros (H1 & H2 & H3 & (mb & tot & en & E & H4 & H5 & H6) & H7 & H8).
  assert (rsize recs <= rsize (recs ++ m)).
  { unfold rsize. rewrite concat_app, zlen_app. pose proof (zlen_nonneg (concat m)). lia. }
  repeat split; auto using dones_ok_app; try lia.
  exists mb, tot, en. repeat split; auto; lia.
Qed.
Lemma col_gen_app recs m ds cur c : col_gen recs ds cur c -> col_gen (recs ++ m) ds cur c.
Proof. intros (H1 & H2 & H3). split; [now apply col_core_app|auto]. Qed.

Lemma d_all_snoc ds d : d_all (ds ++ [d]) = d_all ds ++ d_vals d.
Proof. unfold d_all. rewrite flat_map_app. cbn [flat_map]. now rewrite app_nil_r. Qed.

Lemma binv_new cycle path' keys sis log e : path_ok path' -> E0 path' <= e <= kStartBigFile ->
  binv name tn t cycle [] (basket_new name tn cycle 32768 (eol_for t) (lay_file path' keys sis log e)).
Proof.
  intros P H. pose proof (lay_small path' keys sis log e P H) as SM. unfold binv, basket_new, key_for_basket.
  rewrite (f_keylen_small _ e), (file_big_small _ e) by exact SM. fold (bkl name tn).
  exists (eol_for t), (repeat 0 (Z.to_nat (eol_for t))). split; [reflexivity|].
  unfold eol_for. destruct (vsize t); split; try lia; try reflexivity.
  split; [|split; [rewrite zlen_repeat, (@zlen_nil val); lia|reflexivity]].
  change (Z.to_nat 1000) with 1000%nat. discriminate.
Qed.

Lemma create_ok recs ds c f f' c' keys sis :
  path_ok path -> lay path keys sis recs f -> E0 path + rsize recs <= kStartBigFile ->
  col_core recs ds (zlen (d_all ds)) c -> zlen ds <= 32767 ->
  create_new_basket tn c f = (f', Ok c') ->
  f' = f /\ col_gen recs ds [] c' /\ wc_it c' = wc_it c.
Proof.
  intros P (log & -> & L) HE (H1 & H2 & H3 & (mb & tot & en & E & H4 & H5 & H6) & H7 & H8) HD H.
  unfold create_new_basket in H. rewrite E in H. cbn [ccore b_wb b_bsize b_eol b_maxb b_entrynum b_entries b_tot b_zip b_bytes b_entry b_seek] in H.
  pose proof (zlen_nonneg ds). pose proof (rsize_nonneg recs).
  rewrite to_i16_id in H by (red; lia).
  destruct (Z.ltb_spec (zlen ds + 1) 32768); cbn [negb] in H; [|discriminate].
  apply fbind_inv in H as (f1 & wb & HX & H). apply fgets_inv in HX as [-> ->]. injection H as <- <-.
  split; [reflexivity|]. split; [|reflexivity]. rewrite (@zlen_nil val) || idtac.
  unfold col_gen. rewrite (@zlen_nil val), Z.add_0_r. split; [|split; [lia|split; [constructor|]]].
  - unfold col_core. cbn [wc_ty wc_elem wc_leaf wc_core]. repeat split; auto; try lia.
    eexists _, tot, en. split; [reflexivity|]. auto.
  - eexists. split; [reflexivity|]. unfold wc_name. rewrite E. cbn [ccore b_named new_named n_name].
    apply binv_new; [exact P|lia].
Qed.

Lemma brec_len e cycle ns vs : names_ok name tn (bs "TBasket") -> is_i16 cycle -> 100 <= e ->
  e + (bkl name tn + zlen (payload name tn t vs)) <= kStartBigFile ->
  zlen (brec name tn t cycle e ns vs) = bkl name tn + zlen (payload name tn t vs).
Proof.
  intros N C He H. assert (KO : key_ok (bkey name tn t cycle e vs)) by (apply mk_key_good; auto).
  destruct (khdr_ok _ KO) as (LK & _). unfold brec. rewrite !zlen_app, LK, bfields_len, bhdr_len by exact N. lia.
Qed.

Lemma flush_ok recs ds cur c f f' c' keys sis :
  let e := E0 path + rsize recs in
  col_ty t -> path_ok path -> names_ok name tn (bs "TBasket") -> lay path keys sis recs f ->
  col_gen recs ds cur c -> flush c f = (f', Ok c') -> zlen (f_disk f') <= kStartBigFile ->
  exists ns, let r := brec name tn t (zlen ds + 1) e ns cur in
    lay path keys sis (recs ++ [r]) f' /\ wc_it c' = wc_it c /\
    col_core (recs ++ [r]) (ds ++ [mkD e ns cur]) (zlen (d_all ds ++ cur)) c' /\
    e + (bkl name tn + zlen (payload name tn t cur)) <= kStartBigFile.
Proof.
  intros e C P N L ((H1 & H2 & H3 & (mb & tot & en & E & H4 & H5 & H6) & H7 & H8) & HD & HW & wb & HB & B) H D.
  unfold flush in H. rewrite HB in H.
  apply fbind_inv in H as (f1 & [k wb'] & HBW & H).
  assert (f' = f1) as ->.
  { apply fbind_inv in H as (f2 & ? & HX & H). apply flift_inv in HX as [-> _]. now injection H as ->. }
  pose proof (zlen_nonneg ds) as Hz. pose proof (zlen_nonneg cur). pose proof (zlen_nonneg (d_all ds)). pose proof (E0_pos path P). pose proof (rsize_nonneg recs).
  assert (IC : is_i16 (zlen ds + 1)) by (red; lia).
  destruct (basket_write_ok _ _ _ _ _ _ _ _ _ _ _ _ _ _ P L N IC B HBW D) as (ns & NS & -> & L' & BD).
  fold e in BD, L', H. cbn [fst snd] in H.
  apply fbind_inv in H as (f2 & n & HX & H). apply flift_inv in HX as [-> HX]. apply add_i32_inv in HX as [-> _].
  injection H as <-. exists ns. cbv zeta. split; [exact L'|]. split; [reflexivity|]. split; [|exact BD].
  assert (RS : rsize (recs ++ [brec name tn t (zlen ds + 1) e ns cur]) = rsize recs + (bkl name tn + zlen (payload name tn t cur))).
  { rewrite rsize_snoc, brec_len; auto. unfold e; lia. }
  pose proof (bkl_bounds _ _ N) as HK. pose proof (zlen_nonneg (trailer (bkl name tn) t cur)) as HT.
  assert (HP : zlen (payload name tn t cur) = zlen (ents t cur) + zlen (trailer (bkl name tn) t cur)) by (unfold payload; apply zlen_app).
  pose proof (ents_len t cur C HW) as HL.
  unfold col_core. cbn [wc_ty wc_elem wc_leaf wc_core]. rewrite RS.
  split; [exact H1|]. split; [exact H2|]. split; [exact H3|]. split; [|split].
  - rewrite E. eexists mb, (tot + (bkl name tn + zlen (payload name tn t cur))), (en ++ [zlen (d_all ds) + zlen cur]).
    split; [|split; [|split]].
    + unfold bc_set. cbn [ccore b_wb b_entrynum b_maxb b_entries b_tot b_zip b_bytes b_entry b_seek b_named b_fill b_compress b_bsize b_eol b_iobits b_offset b_split b_first b_fname].
      unfold ccore. rewrite !map_app, !zlen_app, zlen_cons, (@zlen_nil wdone). cbn [map d_seek d_nbytes].
      change (d_nbytes (mkD e ns cur)) with (bkl name tn + zlen (payload name tn t cur)).
      f_equal; unfold bkey, mk_key; cbn [k_keylen k_objlen k_nbytes k_seek]; fold (bkl name tn); f_equal; lia.
    + rewrite d_entry_snoc, <- H4. unfold d_all at 2. rewrite flat_map_app. cbn [flat_map d_vals]. rewrite app_nil_r, zlen_app. reflexivity.
    + rewrite zlen_app. apply Forall_app. split; [exact H5|]. repeat constructor; lia.
    + lia.
  - apply dones_ok_snoc; [now apply dones_ok_app|]. cbn [dones_ok d_seek d_ns d_vals d_nbytes]. rewrite Z.add_0_l.
    split; [apply at_rec_last|]. split; [exact NS|]. split; [exact BD|]. auto.
  - rewrite d_all_snoc, zlen_app. cbn [d_vals]. lia.
Qed.
End Col.

Lemma list_set_ok l i x l' : list_set l (Z.of_nat i) x = Ok l' ->
  (i < length l)%nat /\ l' = firstn i l ++ x :: skipn (S i) l.
Proof.
  unfold list_set. destruct (_ && _) eqn:E; [|discriminate]. intros H. injection H as <-.
  apply andb_true_iff in E as [_ E]. apply Z.ltb_lt in E. rewrite zlen_def in E. rewrite Nat2Z.id. split; [lia|reflexivity].
Qed.
Lemma firstn_snoc_set (l : list Z) i x : (i < length l)%nat -> firstn (S i) (firstn i l ++ x :: skipn (S i) l) = firstn i l ++ [x].
Proof.
  intros H. rewrite firstn_app, firstn_firstn, firstn_length.
  replace (Nat.min (S i) i) with i by lia. replace (S i - Nat.min i (length l))%nat with 1%nat by lia. reflexivity.
Qed.

Lemma update_ok name tn t cycle cur wb v b : names_ok name tn (bs "TBasket") -> col_ty t -> Forall (wt t) cur ->
  binv name tn t cycle cur wb -> zlen (ents t cur) < 32768 ->
  basket_update (wb_basket wb) (zlen (ents t cur)) = Ok b ->
  forall n, is_i32 n ->
  binv name tn t cycle (cur ++ [v]) (mkWB (if bk_nevsize b <? n then bk_set_size b n else b) (w_app (w_new 0) (ents t (cur ++ [v])))).
Proof.
  intros N C W (ns & offs & -> & NS & O) HZ H n Hn. pose proof (bkl_bounds _ _ N) as HK.
  pose proof (ents_len t cur C W) as HL. pose proof (zlen_nonneg cur). pose proof (zlen_nonneg (ents t cur)).
  unfold basket_update in H. cbn [wb_basket bk_key k_keylen bk_offsets bk_nevsize bk_nevbuf] in H.
  set (kl := bkl name tn) in *.
  assert (X : exists ns' offs', b = mkBasket (mkKey 4 kl 0 now_ts kl cycle 100 100 (bs "TBasket") name tn []) (zlen (cur ++ [v])) 0 ns' 32768 offs' /\
     0 <= ns' < 2147483648 /\
     if vsize t then offs' <> [] /\ zlen (cur ++ [v]) <= zlen offs' /\ firstn (length (cur ++ [v])) offs' = starts kl t (cur ++ [v]) else offs' = []).
  { rewrite (zlen_app cur [v]), zlen_cons, (@zlen_nil val), app_length. cbn [length]. rewrite Nat.add_1_r.
    destruct (vsize t) eqn:V.
    - destruct O as (O1 & O2 & O3). destruct offs as [|o0 offs]; [congruence|].
      apply rbind_inv in H as (b1 & H & H').
      set (b0 := if ns <=? zlen cur + 1 then _ else _) in H.
      assert (B0 : exists ns' offs', b0 = mkBasket (mkKey 4 kl 0 now_ts kl cycle 100 100 (bs "TBasket") name tn []) (zlen cur) 0 ns' 32768 offs' /\
        0 <= ns' < 2147483648 /\ firstn (length cur) offs' = starts kl t cur).
      { unfold b0. destruct (Z.leb_spec ns (zlen cur + 1)).
        - eexists (if 10 <? 2 * ns then 2 * ns else 10), _. split; [reflexivity|]. split; [destruct (Z.ltb_spec 10 (2 * ns)); lia|].
          assert (O4 : (length cur - length (o0 :: offs) = 0)%nat) by (rewrite (zlen_def cur), (zlen_def (o0 :: offs)) in O2; lia).
          rewrite firstn_app, O4.
          cbn [firstn]. now rewrite app_nil_r.
        - eexists ns, _. split; [reflexivity|]. auto. }
      destruct B0 as (ns' & offs' & B0 & NS' & O3'). rewrite B0 in H. clear b0 B0.
      cbn [bk_offsets bk_nevbuf] in H. apply rbind_inv in H as (o & Hs & H). injection H as <-. injection H' as <-.
      rewrite zlen_def in Hs. apply list_set_ok in Hs as [Hi ->].
      cbn [bk_set_offsets bk_set_nev bk_key bk_nevbuf bk_last bk_nevsize bk_bufsize bk_offsets].
      eexists ns', _. split; [unfold bk_set_nev, bk_set_offsets; cbn [bk_key bk_nevbuf bk_last bk_nevsize bk_bufsize bk_offsets]; f_equal; lia|].
      split; [exact NS'|]. split; [|split].
      + intros E. apply (f_equal (@length Z)) in E. rewrite app_length in E. cbn in E. lia.
      + rewrite !zlen_def, app_length. cbn [length]. rewrite firstn_length. lia.
      + rewrite firstn_snoc_set by exact Hi. rewrite O3', starts_snoc. rewrite to_i32_id by (red; lia). do 2 f_equal. lia.
    - subst offs. injection H as <-. eexists ns, []. split; [unfold bk_set_nev; cbn [bk_key bk_nevbuf bk_last bk_nevsize bk_bufsize bk_offsets]; f_equal; lia|]. auto. }
  destruct X as (ns' & offs' & -> & NS' & O'). cbn [bk_nevsize].
  destruct (Z.ltb_spec ns' n).
  - exists n, offs'. split; [reflexivity|]. split; [red in Hn; lia|exact O'].
  - exists ns', offs'. split; [reflexivity|]. auto.
Qed.

(** ** One more value *)
Section Step.
Variables (path name tn : bytes) (t : ty).
Hypotheses (C : col_ty t) (P : path_ok path) (N : names_ok name tn (bs "TBasket")).

(** A column that is being written has taken the values [vals]. *)
Definition col_open (recs : list bytes) (vals : list val) (c : wcol) : Prop :=
  exists ds cur, vals = d_all ds ++ cur /\ zlen (ents t cur) < 32768 /\ col_gen path name tn t recs ds cur c.

Definition grows (recs recs' : list bytes) : Prop := exists m, recs' = recs ++ m.
Lemma grows_refl r : grows r r. Proof. exists []. now rewrite app_nil_r. Qed.
Lemma grows_trans a b c : grows a b -> grows b c -> grows a c.
Proof. intros (x & ->) (y & ->). exists (x ++ y). now rewrite app_assoc. Qed.

Lemma write_entry_ok keys sis recs vals c wb v f f' c' n :
  lay path keys sis recs f -> col_open recs vals c -> wc_basket c = Some wb -> wt t v ->
  write_entry tn c wb v f = (f', Ok (c', n)) -> zlen (f_disk f') <= kStartBigFile ->
  exists recs', grows recs recs' /\ lay path keys sis recs' f' /\ col_open recs' (vals ++ [v]) c' /\ wc_it c' = wc_it c.
Proof using C P N.
  intros L (ds & cur & -> & HZ & HC & HD & HW & wb0 & HB0 & B) HB W H D.
  rewrite HB in HB0. injection HB0 as <-.
  destruct HC as (H1 & H2 & H3 & (mb & tot & en & E & H4 & H5 & H6) & H7 & H8).
  unfold write_entry in H. rewrite E, H1 in H.
  assert (EB : wb_buf wb = w_app (w_new 0) (ents t cur)) by (destruct B as (? & ? & -> & _); reflexivity).
  rewrite EB in H. change (wp (w_app (w_new 0) (ents t cur))) with (ents t cur) in H.
  apply fbind_inv in H as (f1 & b & HU & H). apply flift_inv in HU as [-> HU].
  apply fbind_inv in H as (f1 & [l' s'] & HL & H). apply flift_inv in HL as [-> HL].
  destruct (leaf_write_ent name (wc_leaf c) t v (w_app (w_new 0) (ents t cur)) C H3 W) as (l2 & E2 & L2).
  rewrite E2 in HL. injection HL as <- <-. cbn [fst snd] in H. rewrite w_app_app in H.
  assert (EE : ents t cur ++ ent t v = ents t (cur ++ [v])) by (rewrite ents_app; cbn [ents flat_map]; now rewrite app_nil_r).
  rewrite EE in H. change (wp (w_app (w_new 0) (ents t (cur ++ [v])))) with (ents t (cur ++ [v])) in H.
  set (n0 := to_i32 (zlen (ents t (cur ++ [v])) - zlen (ents t cur))) in H.
  pose proof (update_ok _ _ _ _ _ _ v b N C HW B HZ HU n0 (is_i32_cast _)) as B'.
  set (c1 := mkWC _ _ _ _ _ _) in H.
  assert (G : col_gen path name tn t recs ds (cur ++ [v]) c1).
  { split; [|split; [exact HD|split; [apply Forall_app; auto|eexists; split; [reflexivity|exact B']]]].
    unfold c1. split; [reflexivity|]. split; [exact H2|]. split; [exact L2|]. split; [|auto].
    cbn [wc_core]. exists mb, tot, en. split; [|split; [exact H4|split; [|exact H6]]].
    - unfold bc_set, ccore. cbn [b_wb b_entrynum b_maxb b_entries b_tot b_zip b_bytes b_entry b_seek b_named b_fill b_compress b_bsize b_eol b_iobits b_offset b_split b_first b_fname].
      rewrite zlen_app, zlen_cons, (@zlen_nil val), Z.add_0_r, Z.add_assoc. reflexivity.
    - rewrite zlen_app, zlen_cons, (@zlen_nil val). eapply Forall_impl; [|exact H5]. cbv beta; intros; lia. }
  destruct (2 ^ 64 <=? _); [discriminate|]. cbn [ccore b_bsize] in H.
  destruct (Z.leb_spec 32768 (zlen (ents t (cur ++ [v])) + to_u64 n0)).
  - apply fbind_inv in H as (f2 & c2 & HF & H). apply fbind_inv in H as (f3 & c3 & HN & H). injection H as <- <- <-.
    pose proof (mono_disk _ _ _ _ (mono_create_new_basket _ _) HN).
    destruct (flush_ok _ _ _ _ _ _ _ _ _ _ _ _ _ C P N L G HF ltac:(lia)) as (ns & L' & I' & CC & BD).
    set (d := mkD _ ns _) in CC. set (r := brec _ _ _ _ _ _ _) in *.
    assert (EA : d_all (ds ++ [d]) = d_all ds ++ cur ++ [v]) by now rewrite d_all_snoc.
    rewrite <- EA in CC.
    destruct (create_ok path name tn t (recs ++ [r]) (ds ++ [d]) c2 f2 f3 c3 keys sis) as (-> & G' & I2); auto.
    + eapply lay_bound; eauto. lia.
    + rewrite zlen_app, zlen_cons, (@zlen_nil wdone). lia.
    + exists (recs ++ [r]). split; [eexists; reflexivity|]. split; [exact L'|]. split.
      * exists (ds ++ [d]), []. rewrite app_nil_r, EA, app_assoc. split; [reflexivity|]. split; [reflexivity|exact G'].
      * rewrite I2, I'. reflexivity.
  - injection H as <- <- <-. exists recs. split; [apply grows_refl|]. split; [exact L|]. split; [|reflexivity].
    exists ds, (cur ++ [v]). rewrite app_assoc. split; [reflexivity|]. split; [|exact G].
    assert (0 <= to_u64 n0) by (apply Z.mod_pos_bound; reflexivity). lia.
Qed.

(** A column not yet or already being written. *)
Definition col_live (recs : list bytes) (vals : list val) (c : wcol) : Prop :=
  col_open recs vals c \/
  (vals = [] /\ wc_basket c = None /\ col_core path name tn t recs [] 0 c).

Lemma wcol_write_ok keys sis recs vals c f f' c' r :
  lay path keys sis recs f -> col_live recs vals c -> Forall (fun o => forall v, o = Some v -> wt t v) (wc_it c) ->
  wcol_write tn c f = (f', Ok (c', r)) -> zlen (f_disk f') <= kStartBigFile ->
  exists recs', grows recs recs' /\ lay path keys sis recs' f' /\
    col_open recs' (vals ++ match hd None (wc_it c) with Some v => [v] | None => [] end) c' /\ wc_it c' = tl (wc_it c) /\
    (r = None <-> hd None (wc_it c) = None).
Proof using C P N.
  intros L HV HI H D. unfold wcol_write in H.
  apply fbind_inv in H as (f1 & c1 & H1 & H).
  assert (M : zlen (f_disk f1) <= zlen (f_disk f')).
  { destruct (wc_basket c1); [|discriminate].
    destruct (hd None (wc_it c1)); [|injection H as <- <- <-; lia].
    eapply mono_disk; [|exact H]. mono. }
  assert (X : f1 = f /\ col_open recs vals c1 /\ wc_it c1 = wc_it c).
  { destruct HV as [HO|(-> & HN & HC)].
    - pose proof HO as (ds & cur & _ & _ & _ & _ & _ & wb & HB & _). rewrite HB in H1. injection H1 as <- <-. auto.
    - rewrite HN in H1. pose proof (mono_disk _ _ _ _ (mono_create_new_basket _ _) H1).
      destruct (create_ok path name tn t recs [] c f f1 c1 keys sis) as (-> & G & I); auto.
      + eapply lay_bound; eauto. lia.
      + rewrite zlen_nil; lia.
      + split; [reflexivity|]. split; [|exact I]. exists [], []. split; [reflexivity|]. split; [reflexivity|exact G]. }
  destruct X as (-> & HO & HI1). rewrite HI1 in H.
  pose proof HO as (ds & cur & E & HZ & HC & HD & HW & wb & HB & B). rewrite HB in H.
  set (c2 := mkWC _ _ _ _ _ _) in H.
  assert (HO2 : col_open recs vals c2).
  { exists ds, cur. split; [exact E|]. split; [exact HZ|]. split; [exact HC|]. split; [exact HD|]. split; [exact HW|].
    exists wb. split; [reflexivity|exact B]. }
  destruct (hd None (wc_it c)) as [v|] eqn:EH.
  - apply fbind_inv in H as (f2 & [c3 n] & HWr & H). injection H as <- <- <-.
    assert (W : wt t v).
    { destruct (wc_it c) as [|o it]; [discriminate|]. cbn in EH. subst o. inversion HI; auto. }
    destruct (write_entry_ok keys sis recs vals c2 wb v f f2 c3 n L HO2 eq_refl W HWr D) as (recs' & G & L' & HO3 & I3).
    exists recs'. split; [exact G|]. split; [exact L'|]. split; [exact HO3|]. split; [exact I3|]. split; discriminate.
  - injection H as <- <- <-. exists recs. split; [apply grows_refl|]. split; [exact L|]. rewrite app_nil_r. split; [exact HO2|].
    split; [reflexivity|]. tauto.
Qed.
End Step.
